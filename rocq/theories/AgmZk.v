(** Provers of the sum-check over commitments, of the sigma proofs and of the evaluation
    proof: what acceptance says about coordinates, and how rarely a false claim survives. *)
From Coq Require Import String List Arith Bool Lia Field.
From Verif Require Import Base ListAux Field Vec MathModel PolyModel PolySpec PolyProofs CommitModel SigmaModel CommitSpec CommitProofs SigmaProofs SumModel SumSpec SumProofs SumZk EvalSpec EvalProofs AgmSpec AgmRare.
Import ListNotations.

Section AZ.
  Context {K : Fld} {G : Mod K} {E : Enc G}.
  Add Field Kaz : (fth K).
  Local Open Scope fld_scope.
  Local Notation cmp := (CommitModel.compress E).
  Variables (N : nat) (stream : nat -> G) (co : nat -> G -> K) (w : nat).
  Hypothesis Co : coordinates N stream co.

  Definition val (e : E) : K := co w (point e).
  Definition vec (n : nat) (e : E) : list K := tab n (fun i => co i (point e)).

  (** * linear algebra of coordinates *)
  Lemma co_0 i : co i g0 = 0.
  Proof. pose proof (co_mul _ _ _ Co i 0 g0) as X. replace (gmul 0 (g0 : G)) with (g0 : G) in X by (module_red; ring). rewrite X. ring. Qed.
  Lemma co_opp i P : co i (gopp P) = - co i P.
  Proof.
    assert (X : co i (gadd P (gopp P)) = 0) by (rewrite gadd_opp; apply co_0). rewrite (co_add _ _ _ Co) in X.
    transitivity (co i P + co i (gopp P) - co i P); [ring|]. rewrite X. ring.
  Qed.
  Lemma co_lincomb i xs : forall gs, co i (lincomb xs gs) = dot xs (map (co i) gs).
  Proof.
    induction xs as [|x xs IH]; intros [|g gs]; cbn [lincomb map]; rewrite ?(dot_nil_l K), ?(dot_nil_r K); try apply co_0.
    rewrite (co_add _ _ _ Co), (co_mul _ _ _ Co), IH, (dot_cons K). reflexivity.
  Qed.
  Lemma co_tab i n z : (i < n)%nat -> (n <= N)%nat -> length z = n -> dot z (map (co i) (tab n stream)) = nth i z 0.
  Proof.
    intros Hi Hn Lz. rewrite map_tab. rewrite (dot_sumn K z _ n) by (try exact Lz; apply tab_length).
    rewrite (sumn_single K n i) by (try exact Hi; intros j Hj Nj; rewrite nth_tab by exact Hj; rewrite (co_gen _ _ _ Co) by lia; rewrite (proj2 (Nat.eqb_neq i j)) by lia; ring).
    rewrite nth_tab by exact Hi. rewrite (co_gen _ _ _ Co) by lia. rewrite Nat.eqb_refl. ring.
  Qed.
  Lemma co_tab_out i n z : (n <= i)%nat -> (i < N)%nat -> length z = n -> dot z (map (co i) (tab n stream)) = 0.
  Proof.
    intros Hi Hn Lz. rewrite map_tab. rewrite (dot_sumn K z _ n) by (try exact Lz; apply tab_length).
    apply (sumn_zero K). intros j Hj. rewrite nth_tab by exact Hj. rewrite (co_gen _ _ _ Co) by lia. rewrite (proj2 (Nat.eqb_neq i j)) by lia. ring.
  Qed.
  Lemma point_some (e : E) P : decompress E e = Some P -> point e = P.
  Proof. unfold point. now intros ->. Qed.
  Lemma point_cmp (P : G) : point (cmp P) = P.
  Proof. apply point_some, dec_comp. Qed.

  (** * answers to challenges *)
  Variable H : log E -> K.
  Definition answers (tr : log E) (cs : list K) : Prop := forall l i, asked l = (asked tr + S i)%nat -> (i < length cs)%nat -> H l = nth i cs 0.
  Lemma answers_skip tr tr' cs n : answers tr cs -> asked tr' = (asked tr + n)%nat -> answers tr' (skipn n cs).
  Proof.
    intros A L l i El Hi. rewrite skipn_length in Hi. rewrite skipn_nth. apply A; lia.
  Qed.
  Lemma answers_nth tr cs l i : answers tr cs -> asked l = (asked tr + S i)%nat -> (i < length cs)%nat -> H l = nth i cs 0.
  Proof. intros A. apply A. Qed.
  Lemma answers_same tr tr' cs : answers tr cs -> asked tr' = asked tr -> answers tr' cs.
  Proof. intros A L l i El. apply A. lia. Qed.
  Lemma asked_chals lb n : forall tr xs tr', challenges H lb n tr = (xs, tr') -> asked tr' = (asked tr + n)%nat.
  Proof.
    induction n as [|n IH]; intros tr xs tr' X; cbn [challenges] in X; [injection X as _ <-; lia|].
    unfold challenge in X. destruct (challenges H lb n (MChal lb :: tr)) as [ys t] eqn:Ec. injection X as _ <-.
    rewrite (IH _ _ _ Ec), asked_cons. cbn [is_chal]. lia.
  Qed.
  Lemma chals_firstn lb n : forall tr cs, answers tr cs -> (n <= length cs)%nat -> fst (challenges H lb n tr) = firstn n cs.
  Proof.
    induction n as [|n IH]; intros tr cs A L; cbn [challenges]; [reflexivity|]. unfold challenge.
    destruct cs as [|c cs]; [cbn in L; lia|]. cbn [length] in L.
    assert (A1 : answers (MChal lb :: tr) cs).
    { apply (answers_skip tr _ (c :: cs) 1 A). rewrite asked_cons. cbn [is_chal]. lia. }
    specialize (IH (MChal lb :: tr) cs A1 ltac:(lia)). destruct (challenges H lb n (MChal lb :: tr)) as [ys t]. cbn [fst] in *.
    cbn [firstn]. rewrite IH. f_equal. rewrite (A _ 0%nat); [reflexivity|rewrite asked_cons; cbn [is_chal]; lia|cbn; lia].
  Qed.

  (** * the sigma proofs, in coordinates *)
  (** generators of the value commitments: value on generator [w], blind elsewhere *)
  Definition value_gens (g : gens G) : Prop := gn g = 1%nat /\ gG g = [stream w] /\ exists j, gh g = stream j /\ (j < N)%nat /\ j <> w.
  Definition vector_gens (n : nat) (g : gens G) : Prop := gn g = n /\ gG g = tab n stream /\ exists j, gh g = stream j /\ (n <= j < N)%nat.
  Hypothesis Hw : (w < N)%nat.

  Lemma co_ped1 g x r : value_gens g -> co w (ped1 g x r) = x.
  Proof.
    intros (_ & Eg & j & Ej & Lj & Nj). rewrite (ped1_unfold g (stream w) x r Eg). rewrite (co_add _ _ _ Co), !(co_mul _ _ _ Co), Ej, !(co_gen _ _ _ Co) by assumption.
    rewrite Nat.eqb_refl, (proj2 (Nat.eqb_neq w j)) by congruence. ring.
  Qed.
  Lemma co_ped n g z r : vector_gens n g -> length z = n -> tab n (fun i => co i (ped g z r)) = z.
  Proof.
    intros (_ & Eg & j & Ej & Lj) Lz. apply (list_ext _ _ 0); [now rewrite tab_length|]. rewrite tab_length. intros i Hi. rewrite nth_tab by exact Hi.
    unfold ped. rewrite (co_add _ _ _ Co), (co_mul _ _ _ Co), co_lincomb, Eg, (co_tab i n z) by (try assumption; lia).
    rewrite Ej, (co_gen _ _ _ Co) by lia. rewrite (proj2 (Nat.eqb_neq i j)) by lia. ring.
  Qed.
  Lemma vg_ok g : value_gens g -> gens_ok g.
  Proof. intros (Ng & Eg & _). unfold gens_ok. now rewrite Ng, Eg. Qed.

  Lemma dp_asked pf (g1 gN : gens G) tr a Cx Cy tr' : dp_verify H pf g1 gN tr a Cx Cy = Ok tr' -> asked tr' = S (asked tr).
  Proof.
    unfold dp_verify, challenge. destruct (Nat.eqb (gn gN) (length a)); [|discriminate]. destruct (Nat.eqb (gn g1) 1); [|discriminate]. intro V.
    destruct (unpack Cx); try discriminate V. destruct (unpack (dp_delta pf)); try discriminate V. cbn [bind] in V.
    destruct (commit _ _ gN); try discriminate V. cbn [bind] in V. destruct (compute_dotproduct _ _); try discriminate V. cbn [bind] in V.
    destruct (unpack Cy); try discriminate V. destruct (unpack (dp_beta pf)); try discriminate V. cbn [bind] in V. destruct (commit1 _ _ g1); try discriminate V. cbn [bind] in V.
    destruct (geqb _ _) in V; [|discriminate V]. destruct (geqb _ _) in V; [|discriminate V]. injection V as <-.
    unfold app_point, proto. rewrite !asked_cons, asked_scalars, !asked_cons. cbn [is_chal]. lia.
  Qed.
  Lemma dp_coord pf (g1 gN : gens G) tr a Cx Cy tr' n : dp_verify H pf g1 gN tr a Cx Cy = Ok tr' -> value_gens g1 -> vector_gens n gN ->
    length a = n /\ H tr' * (val Cy - dot (vec n Cx) a) = dot (vec n (dp_delta pf)) a - val (dp_beta pf).
  Proof.
    intros V V1 VN. destruct (dp_inv _ _ _ _ _ _ _ _ _ V (vg_ok _ V1)) as (Lz & NN & b & X & D & Y & B & Hb & DX & DD & DY & DB & Q1 & Q2).
    assert (La : length a = n) by (destruct VN as [VN _]; congruence). split; [exact La|].
    assert (E2 : H tr' * val Cy + val (dp_beta pf) = dot (dp_z pf) a).
    { unfold val. rewrite (point_some _ _ DY), (point_some _ _ DB). rewrite <- (co_mul _ _ _ Co), <- (co_add _ _ _ Co), Q2. now apply co_ped1. }
    assert (E1 : dp_z pf = vadd (map (fmul (H tr')) (vec n Cx)) (vec n (dp_delta pf))).
    { rewrite <- (co_ped n gN (dp_z pf) (dp_zdelta pf) VN) by congruence. unfold vec, vadd. rewrite map_tab, map2_tab. apply tab_ext. intros i Hi.
      rewrite <- Q1, (co_add _ _ _ Co), (co_mul _ _ _ Co), (point_some _ _ DX), (point_some _ _ DD). reflexivity. }
    rewrite E1, (dot_vadd_l K), (dot_scale_l K) in E2 by (unfold vec; rewrite map_length, !tab_length; reflexivity).
    transitivity (H tr' * val Cy + val (dp_beta pf) - H tr' * dot (vec n Cx) a - val (dp_beta pf)); [ring|]. rewrite E2. ring.
  Qed.
  Lemma ep_coord pf g tr C1 C2 tr' : ep_verify H pf g tr C1 C2 = Ok tr' -> value_gens g ->
    asked tr' = S (asked tr) /\ H tr' * (val C1 - val C2) = - val (ep_alpha pf).
  Proof.
    intros V (_ & _ & j & Ej & Lj & Nj). split.
    - unfold ep_verify, challenge in V. destruct (unpack C1); try discriminate V. destruct (unpack C2); try discriminate V. destruct (unpack (ep_alpha pf)); try discriminate V. cbn [bind] in V.
      destruct (eeqb _ _ _); [|discriminate V]. injection V as <-. unfold app_point, proto. rewrite !asked_cons. cbn [is_chal]. lia.
    - destruct (ep_inv _ _ _ _ _ _ _ V) as (g1 & g2 & al & D1 & D2 & Da & Q). unfold val. rewrite (point_some _ _ D1), (point_some _ _ D2), (point_some _ _ Da).
      apply (f_equal (co w)) in Q. rewrite !(co_add _ _ _ Co), !(co_mul _ _ _ Co), !(co_add _ _ _ Co), co_opp, Ej, (co_gen _ _ _ Co) in Q by assumption.
      rewrite (proj2 (Nat.eqb_neq w j)) in Q by congruence.
      transitivity (H tr' * (co w g1 + - co w g2) + co w al - co w al); [ring|]. rewrite Q. ring.
  Qed.
  Lemma kp_asked pf (g : gens G) tr C tr' : kp_verify H pf g tr C = Ok tr' -> asked tr' = S (asked tr).
  Proof.
    unfold kp_verify, challenge. intro V. destruct (commit1 _ _ g); try discriminate V. cbn [bind] in V. destruct (unpack C); try discriminate V. destruct (unpack (kp_alpha pf)); try discriminate V.
    cbn [bind] in V. destruct (eeqb _ _ _); [|discriminate V]. injection V as <-. unfold app_point, proto. rewrite !asked_cons. cbn [is_chal]. lia.
  Qed.
  Lemma pp_coord pf g tr X Y Z tr' : pp_verify H pf g tr X Y Z = Ok tr' -> value_gens g ->
    asked tr' = S (asked tr) /\ H tr' * (val Z - val X * val Y) = val (pp_beta pf) * val X - val (pp_delta pf).
  Proof.
    intros V VG. split.
    - unfold pp_verify, challenge in V. destruct (pp_z pf) as [[[[z1 z2] z3] z4] z5].
      destruct (pp_check (pp_alpha pf) _ _ _ _ _) as [[|]| |]; try discriminate V. cbn [bind] in V. destruct (pp_check (pp_beta pf) _ _ _ _ _) as [[|]| |]; try discriminate V. cbn [bind] in V.
      destruct (unpack X); try discriminate V. cbn [bind] in V. destruct (pp_check (pp_delta pf) _ _ _ _ _) as [[|]| |]; try discriminate V. cbn [bind] in V. injection V as <-.
      unfold app_point, proto. rewrite !asked_cons. cbn [is_chal]. lia.
    - destruct (pp_z pf) as [[[[z1 z2] z3] z4] z5] eqn:Ez. destruct (pp_inv _ _ _ _ _ _ _ _ _ _ _ _ _ V Ez) as (Xg & DX & _ & B1 & D1).
      destruct (pp_check_inv _ _ _ _ _ _ B1 (vg_ok _ VG)) as (b3 & Pb & YY & _ & _ & DPb & DYY & QB).
      assert (HX : gens_ok (MkGens 1 [Xg] (gh g))) by reflexivity.
      destruct (pp_check_inv _ _ _ _ _ _ D1 HX) as (b5 & Pd & ZZ & _ & _ & DPd & DZZ & QD).
      apply (f_equal (co w)) in QB. rewrite (co_ped1 g) in QB by exact VG. rewrite (co_add _ _ _ Co), (co_mul _ _ _ Co) in QB.
      apply (f_equal (co w)) in QD. rewrite (ped1_unfold (MkGens 1 [Xg] (gh g)) Xg z3 z5 eq_refl) in QD. cbn [gh] in QD. destruct VG as (_ & _ & j & Ej & Lj & Nj).
      rewrite !(co_add _ _ _ Co), !(co_mul _ _ _ Co), Ej, (co_gen _ _ _ Co) in QD by assumption. rewrite (proj2 (Nat.eqb_neq w j)) in QD by congruence.
      unfold val. rewrite (point_some _ _ DX), (point_some _ _ DYY), (point_some _ _ DZZ), (point_some _ _ DPb), (point_some _ _ DPd).
      transitivity (H tr' * co w ZZ + co w Pd - co w Pd - H tr' * co w YY * co w Xg); [ring|]. rewrite QD, <- QB. ring.
  Qed.

  (** * the sum-check over commitments *)
  Fixpoint zk_acc (d : nat) {n : nat} {A : Type} : zk_plan E n A -> E -> list K -> (A -> E -> list K -> list K -> Prop) -> Prop :=
    match n with
    | O => fun s cc cs Kont => Kont s cc [] cs
    | S n' => fun s cc cs Kont =>
        let '(P, s1) := s in let '(e, s2) := s1 (nth 0 cs 0) in
        let '((dl, be), s3) := s2 (nth 1 cs 0) (nth 2 cs 0) in
        let '((z, zd, zb), s4) := s3 (nth 3 cs 0) in
        let a := zk_vector (S d) (nth 0 cs 0) (nth 1 cs 0) (nth 2 cs 0) in
        nth 3 cs 0 * (nth 1 cs 0 * val cc + nth 2 cs 0 * val e - dot (vec (S d) P) a) = dot (vec (S d) dl) a - val be /\
        zk_acc d s4 e (skipn 4 cs) (fun x e' rs cs' => Kont x e' (nth 0 cs 0 :: rs) cs')
    end.

  Lemma zk_run d g1 gN : value_gens g1 -> vector_gens (S d) gN -> forall n A (s : zk_plan E n A) cc cs tr rs tr' (Kont : A -> E -> list K -> list K -> Prop),
    answers tr cs -> (4 * n <= length cs)%nat ->
    let '(pf, x, cs') := zk_sent s cs in
    zk_rounds H (zk_polys pf) (zk_evals pf) (zk_proofs pf) cc d g1 gN tr = Ok (rs, tr') ->
    (length rs = n -> answers tr' cs' -> length cs' = (length cs - 4 * n)%nat -> length (zk_evals pf) = n -> length (zk_polys pf) = n -> length (zk_proofs pf) = n ->
      Kont x (last (zk_evals pf) cc) rs cs') -> zk_acc d s cc cs Kont.
  Proof.
    intros V1 VN. induction n as [|n IH]; intros A s cc cs tr rs tr' Kont An L.
    - cbn [zk_sent zk_polys zk_evals zk_proofs zk_rounds zk_acc last]. intros X Kt. injection X as <- <-. apply Kt; auto. cbn. lia.
    - cbn [zk_sent zk_acc]. destruct s as [P s1]. destruct (s1 (nth 0 cs 0)) as [e s2]. destruct (s2 (nth 1 cs 0) (nth 2 cs 0)) as [[dl be] s3].
      destruct (s3 (nth 3 cs 0)) as [[[z zd] zb] s4]. specialize (IH A s4 e (skipn 4 cs)).
      destruct (zk_sent s4 (skipn 4 cs)) as [[pf x] cs'] eqn:Es. cbn [zk_polys zk_evals zk_proofs]. intros X Kt.
      cbn [zk_rounds] in X. unfold challenge in X. rewrite idx_0 in X. cbn [bind] in X.
      set (t1 := MChal "challenge_nextround" :: _) in X. set (t2 := MChal "combine_two_claims_to_one" :: app_point _ _ _) in X. set (t3 := MChal "combine_two_claims_to_one" :: t2) in X.
      assert (A1 : asked t1 = (asked tr + 1)%nat) by (unfold t1, app_point; rewrite !asked_cons; cbn [is_chal]; lia).
      assert (A2 : asked t2 = (asked tr + 2)%nat) by (unfold t2, app_point; rewrite !asked_cons, A1; cbn [is_chal]; lia).
      assert (A3 : asked t3 = (asked tr + 3)%nat) by (unfold t3; rewrite !asked_cons, A2; cbn [is_chal]; lia).
      rewrite (An t1 0%nat), (An t2 1%nat), (An t3 2%nat) in X by lia.
      destruct (unpack cc) as [C| |] eqn:Ec; try discriminate X. cbn [bind] in X. destruct (unpack e) as [Ce| |] eqn:Ee; try discriminate X. cbn [bind] in X.
      rewrite msm2 in X. cbn [bind] in X. rewrite idx_0 in X. cbn [bind] in X. cbn [tl] in X.
      destruct (dp_verify H _ g1 gN t3 _ P _) as [t4| |] eqn:Ed; try discriminate X.
      destruct (zk_rounds H (zk_polys pf) (zk_evals pf) (zk_proofs pf) e d g1 gN t4) as [[rs1 t5]| |] eqn:Er; try discriminate X. cbn [bind] in X. injection X as <- <-.
      pose proof (dp_asked _ _ _ _ _ _ _ _ Ed) as A4. destruct (dp_coord _ _ _ _ _ _ _ _ _ Ed V1 VN) as [La Q].
      rewrite (An t4 3%nat) in Q by lia. cbn [dp_delta dp_beta] in Q.
      apply unpack_inv in Ec. apply unpack_inv in Ee. replace (d + 1)%nat with (S d) in Q by lia. split.
      + replace (nth 1 cs 0 * val cc + nth 2 cs 0 * val e) with (val (cmp (gadd (gmul (nth 1 cs 0) C) (gmul (nth 2 cs 0) Ce)))); [exact Q|].
        unfold val. rewrite point_cmp, (co_add _ _ _ Co), !(co_mul _ _ _ Co), (point_some _ _ Ec), (point_some _ _ Ee). reflexivity.
      + apply (IH t4 rs1 t5 (fun x0 e' rs cs'0 => Kont x0 e' (nth 0 cs 0 :: rs) cs'0)).
        * apply (answers_skip tr); [exact An|]. rewrite A4, A3. lia.
        * rewrite skipn_length. lia.
        * exact Er.
        * intros L1 A5 L2 L3 L4 L5. rewrite skipn_length in L2. assert (Ls : last (e :: zk_evals pf) cc = last (zk_evals pf) e).
          { destruct (zk_evals pf) as [|y l]; [reflexivity|]. cbn [last]. clear. revert y. induction l as [|y' l IH]; intro y; [reflexivity|]. cbn [last]. apply IH. }
          rewrite Ls in Kt. apply Kt; try assumption; cbn [length]; try lia.
  Qed.

  Lemma zk_rare d D : (1 <= D)%nat -> (d <= D)%nat -> forall n A (s : zk_plan E n A) cc f m (Kont : A -> E -> list K -> list K -> Prop),
    deg_each d n f -> val cc <> hsum n f ->
    (forall x e rs, length rs = n -> val e <> f rs -> rare D m (Kont x e rs)) ->
    rare D (4 * n + m) (fun cs => zk_acc d s cc cs Kont).
  Proof.
    intros D1 Dd. induction n as [|n IH]; intros A s cc f m Kont Df Nf RK.
    - cbn [Nat.mul Nat.add zk_acc]. apply (rare_impl D m _ (Kont s cc [])); [auto|]. apply RK; [reflexivity|exact Nf].
    - replace (4 * S n + m)%nat with (S (S (S (S (4 * n + m))))) by lia. destruct s as [P s1]. cbn [zk_acc].
      set (p := vec (S d) P). assert (Lp : length p = S d) by apply tab_length.
      assert (ZV : forall r w0 w1, dot p (zk_vector (S d) r w0 w1) = w0 * (peval p 0 + peval p 1) + w1 * peval p r).
      { intros r w0 w1. rewrite <- Lp. apply zk_vector_dot. lia. }
      destruct (hsum_poly d n _ f Df [] eq_refl) as (qs & Lq & Eq). cbn [app] in Eq.
      (* a claim that the combined check refutes *)
      assert (DOOM : forall r, val cc <> peval p 0 + peval p 1 \/ val (fst (s1 r)) <> peval p r ->
        rare D (S (S (S (4 * n + m)))) (fun cs => let '(e, s2) := s1 r in let '((dl, be), s3) := s2 (nth 0 cs 0) (nth 1 cs 0) in
          let '((z, zd, zb), s4) := s3 (nth 2 cs 0) in
          let a := zk_vector (S d) r (nth 0 cs 0) (nth 1 cs 0) in
          nth 2 cs 0 * (nth 0 cs 0 * val cc + nth 1 cs 0 * val e - dot p a) = dot (vec (S d) dl) a - val be /\
          zk_acc d s4 e (skipn 3 cs) (fun x e' rs cs' => Kont x e' (r :: rs) cs'))).
      { intros r X. destruct (s1 r) as [e s2]. cbn [fst] in X.
        set (u := val cc - (peval p 0 + peval p 1)). set (v := val e - peval p r).
        assert (Q : forall w0 w1, w0 * val cc + w1 * val e - dot p (zk_vector (S d) r w0 w1) = w0 * u + w1 * v) by (intros; rewrite ZV; unfold u, v; ring).
        assert (LAST : forall w0 w1, w0 * u + w1 * v <> 0 -> rare D (S (4 * n + m)) (fun cs => let '((dl, be), s3) := s2 w0 w1 in
          let '((z, zd, zb), s4) := s3 (nth 0 cs 0) in
          let a := zk_vector (S d) r w0 w1 in
          nth 0 cs 0 * (w0 * val cc + w1 * val e - dot p a) = dot (vec (S d) dl) a - val be /\
          zk_acc d s4 e (skipn 1 cs) (fun x e' rs cs' => Kont x e' (r :: rs) cs'))).
        { intros w0 w1 NZ. destruct (s2 w0 w1) as [[dl be] s3].
          eapply rare_step; [exact (few_lin D _ (dot (vec (S d) dl) (zk_vector (S d) r w0 w1) - val be) D1 NZ)|]. intros c Nc. apply rare_none. intros cs _. cbn [nth].
          destruct (s3 c) as [[[z zd] zb] s4]. intros [Y _]. apply Nc. rewrite <- Y, Q. reflexivity. }
        destruct (feqb_spec K v 0) as [V0|V0].
        - assert (U0 : u <> 0). { intro U0. destruct X as [X|X]; apply X; apply (fsub_eq_0 K); assumption. }
          apply (rare_step D _ _ (fun c => c = 0)); [now apply few_one|]. intros w0 N0. apply rare_skip. intro w1.
          apply (LAST w0 w1). rewrite V0. replace (w0 * u + w1 * 0) with (w0 * u) by ring. now apply (fmul_neq_0 K).
        - apply rare_skip. intro w0. apply (rare_step D _ _ (fun c => c * v = - (w0 * u))); [now apply few_lin|]. intros w1 N1.
          apply (LAST w0 w1). intro Y. apply N1. transitivity (w0 * u + w1 * v - w0 * u); [ring|]. rewrite Y. ring. }
      destruct (feqb_spec K (val cc) (peval p 0 + peval p 1)) as [Ec|Ec].
      + set (ds := padd (0 - 1) p qs).
        assert (Eds : forall x, peval ds x = peval p x - hsum n (fun b => f (x :: b))) by (intro x; unfold ds; rewrite peval_padd, <- Eq; ring).
        assert (Nds : nonzero ds).
        { destruct (nonzero_dec ds) as [Y|Y]; [exact Y|]. exfalso. apply Nf. rewrite Ec. cbn [hsum].
          assert (Pp : forall x, peval p x = hsum n (fun b => f (x :: b))) by (intro x; transitivity (peval ds x + hsum n (fun b => f (x :: b))); [rewrite Eds; ring|]; rewrite Y; ring).
          now rewrite !Pp. }
        apply (rare_step D _ _ (fun r => peval ds r = 0)).
        { apply (few_mono d D _ _ Dd (fun x h => h)). apply few_roots; [|exact Nds]. unfold ds. rewrite padd_length. lia. }
        intros r Nr. destruct (feqb_spec K (val (fst (s1 r))) (peval p r)) as [Ee|Ee]; [|exact (DOOM r (or_intror Ee))].
        cbn [nth skipn]. destruct (s1 r) as [e s2]. cbn [fst] in Ee. apply rare_skip. intro w0. apply rare_skip. intro w1. cbn [nth skipn]. destruct (s2 w0 w1) as [[dl be] s3].
        apply rare_skip. intro c. cbn [nth skipn]. destruct (s3 c) as [[[z zd] zb] s4].
        eapply rare_impl; [intros cs _ Y; exact (proj2 Y)|].
        apply (IH A s4 e (fun b => f (r :: b)) m (fun x e' rs cs' => Kont x e' (r :: rs) cs')).
        * now apply deg_each_cons.
        * intro Y. apply Nr. rewrite Eds, <- Y, Ee. ring.
        * intros x e' rs Lr Ne. apply (RK x e' (r :: rs)); [cbn; now rewrite Lr|exact Ne].
      + apply rare_skip. intro r. exact (DOOM r (or_introl Ec)).
  Qed.
End AZ.
