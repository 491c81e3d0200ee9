From Coq Require Import String List Arith Bool Lia Field.
From Verif Require Import Base ListAux Field Vec MathModel PolyModel PolySpec PolyProofs PolyImp CommitModel SigmaModel CommitSpec CommitProofs BulletProofs LogProofs SigmaApi EvalSpec.
Import ListNotations.

Section EP.
  Context {K : Fld} {G : Mod K} {E : Enc G}.
  Add Field Kep : (fth K).
  Local Open Scope fld_scope.

  (** * weights *)
  Lemma sub_nz (x y : K) : x <> y -> x - y <> 0.
  Proof. intros N X. apply N. now apply (fsub_eq_0 K). Qed.
  Lemma weights (v1 v2 v3 : K) : v1 <> v2 -> v1 <> v3 -> v2 <> v3 -> v1 <> 0 -> v2 <> 0 -> v3 <> 0 ->
    let w1 := weight v1 v2 v3 in let w2 := weight v2 v1 v3 in let w3 := weight v3 v1 v2 in
    w1 + (w2 + w3) = 1 /\ w1 * v1 + (w2 * v2 + w3 * v3) = 0 /\ w1 * finv v1 + (w2 * finv v2 + w3 * finv v3) = 0.
  Proof.
    intros N12 N13 N23 Z1 Z2 Z3. cbv zeta. unfold weight.
    pose proof (sub_nz _ _ N12). pose proof (sub_nz _ _ N13). pose proof (sub_nz _ _ N23).
    pose proof (sub_nz v2 v1 (fun e => N12 (eq_sym e))). pose proof (sub_nz v3 v1 (fun e => N13 (eq_sym e))). pose proof (sub_nz v3 v2 (fun e => N23 (eq_sym e))).
    split; [|split]; field; repeat split; assumption.
  Qed.

  (** * folding *)
  Definition foldv (u : K) (gs : list G) : list G :=
    let n := (length gs / 2)%nat in
    map2 (fun l r => gadd (gmul (finv u) l) (gmul u r)) (firstn n gs) (skipn n gs).
  Lemma half_pow k : (2 ^ S k / 2 = 2 ^ k)%nat.
  Proof. rewrite pow2_S. replace (2 ^ k + 2 ^ k)%nat with (2 ^ k * 2)%nat by lia. apply Nat.div_mul. lia. Qed.
  Lemma foldv_length u k (gs : list G) : length gs = (2 ^ S k)%nat -> length (foldv u gs) = (2 ^ k)%nat.
  Proof.
    intro L. unfold foldv. rewrite L, half_pow, map2_length, firstn_length, skipn_length, L, pow2_S. lia.
  Qed.
  Lemma foldv_lincomb u k (x : list K) (gs : list G) : length gs = (2 ^ S k)%nat -> length x = (2 ^ k)%nat ->
    lincomb x (foldv u gs) = lincomb (unfold_vec u x) gs.
  Proof.
    intros L Lx. unfold foldv, unfold_vec. rewrite L, half_pow. rewrite pow2_S in L. set (n := (2 ^ k)%nat) in *.
    rewrite <- (firstn_skipn n gs) at 3. rewrite lincomb_app by (rewrite map_length, firstn_length_le; lia).
    rewrite !lincomb_scale.
    assert (LF : length (firstn n gs) = length x) by (rewrite firstn_length_le; lia).
    assert (LR : length (skipn n gs) = length x) by (rewrite skipn_length; lia).
    revert LF LR. generalize (firstn n gs) (skipn n gs). clear.
    induction x as [|x xs IH]; intros [|y A] [|z B] L1 L2; try discriminate; cbn [map2 lincomb].
    - module_red; ring.
    - injection L1 as L1. injection L2 as L2. rewrite (IH A B L1 L2). module_red; ring.
  Qed.
  Lemma unfold_svec u (us : list K) : unfold_vec u (tab (2 ^ length us) (sval us)) = tab (2 ^ length (u :: us)) (sval (u :: us)).
  Proof. unfold unfold_vec. now rewrite svec_cons. Qed.
  Lemma unfold_length u (x : list K) : length (unfold_vec u x) = (length x + length x)%nat.
  Proof. unfold unfold_vec. now rewrite app_length, !map_length. Qed.
End EP.

Section EX.
  Context {K : Fld} {G : Mod K} {E : Enc G}.
  Add Field Kex : (fth K).
  Local Open Scope fld_scope.
  Variable s : strategy E.

  Definition pt (e : E) : G := match decompress E e with Some P => P | None => g0 end.
  Definition next (u : K) (pre : list K) (P : G) : G :=
    gadd P (gadd (gmul (u * u) (pt (fst (st_round s pre)))) (gmul (finv u * finv u) (pt (snd (st_round s pre))))).
  Fixpoint through (pre us : list K) (P : G) : G :=
    match us with [] => P | u :: t => through (pre ++ [u]) t (next u pre P) end.

  (** what a leaf gives *)
  Definition leaf_eq (acc : list K -> K -> Prop) (ahat : list K -> K) (Q h : G) (gs : list G) (P : G) (us : list K) : Prop :=
    forall c c', c <> c' -> ahat us <> 0 -> acc us c -> acc us c' ->
    let e := finv ((c - c') * ahat us) in
    let x := e * (fst (st_resp s us c) - fst (st_resp s us c')) in
    through [] us P = gadd (gadd (gmul x (lincomb (tab (2 ^ length us) (sval us)) gs)) (gmul (x * ahat us) Q))
      (gmul (e * (snd (st_resp s us c) - snd (st_resp s us c'))) h).

  Lemma through_app us : forall pre vs P, through pre (us ++ vs) P = through (pre ++ us) vs (through pre us P).
  Proof.
    induction us as [|u us IH]; intros pre vs P; cbn [through app]; [now rewrite app_nil_r|]. rewrite IH, <- app_assoc. reflexivity.
  Qed.

  Lemma combine3 (P Q h L R : G) (x1 x2 x3 : list K) (b1 b2 b3 u1 u2 u3 : K) (gs : list G) (a : list K) k :
    u1 <> 0 -> u2 <> 0 -> u3 <> 0 -> u1 * u1 <> u2 * u2 -> u1 * u1 <> u3 * u3 -> u2 * u2 <> u3 * u3 ->
    length x1 = k -> length x2 = k -> length x3 = k ->
    let w1 := weight (u1 * u1) (u2 * u2) (u3 * u3) in
    let w2 := weight (u2 * u2) (u1 * u1) (u3 * u3) in
    let w3 := weight (u3 * u3) (u1 * u1) (u2 * u2) in
    let y1 := unfold_vec u1 x1 in let y2 := unfold_vec u2 x2 in let y3 := unfold_vec u3 x3 in
    gadd P (gadd (gmul (u1 * u1) L) (gmul (finv u1 * finv u1) R)) = gadd (gadd (lincomb y1 gs) (gmul (dot y1 a) Q)) (gmul b1 h) ->
    gadd P (gadd (gmul (u2 * u2) L) (gmul (finv u2 * finv u2) R)) = gadd (gadd (lincomb y2 gs) (gmul (dot y2 a) Q)) (gmul b2 h) ->
    gadd P (gadd (gmul (u3 * u3) L) (gmul (finv u3 * finv u3) R)) = gadd (gadd (lincomb y3 gs) (gmul (dot y3 a) Q)) (gmul b3 h) ->
    let y := vadd (map (fmul w1) y1) (vadd (map (fmul w2) y2) (map (fmul w3) y3)) in
    P = gadd (gadd (lincomb y gs) (gmul (dot y a) Q)) (gmul (w1 * b1 + (w2 * b2 + w3 * b3)) h).
  Proof.
    intros Z1 Z2 Z3 N12 N13 N23 L1 L2 L3 w1 w2 w3 y1 y2 y3 E1 E2 E3 y.
    assert (Ly : length y1 = length y2 /\ length y2 = length y3) by (unfold y1, y2, y3; rewrite !unfold_length; lia). destruct Ly as [Ly12 Ly23].
    destruct (weights (u1 * u1) (u2 * u2) (u3 * u3)) as (S1 & S2 & S3); try assumption; try (apply (fmul_neq_0 K); assumption).
    fold w1 in S1, S2, S3. fold w2 in S1, S2, S3. fold w3 in S1, S2, S3. cbv zeta in S1, S2, S3.
    assert (EP : P = gadd (gmul w1 (gadd P (gadd (gmul (u1 * u1) L) (gmul (finv u1 * finv u1) R))))
                    (gadd (gmul w2 (gadd P (gadd (gmul (u2 * u2) L) (gmul (finv u2 * finv u2) R))))
                          (gmul w3 (gadd P (gadd (gmul (u3 * u3) L) (gmul (finv u3 * finv u3) R)))))).
    { replace (finv u1 * finv u1) with (finv (u1 * u1)) by (field; assumption).
      replace (finv u2 * finv u2) with (finv (u2 * u2)) by (field; assumption).
      replace (finv u3 * finv u3) with (finv (u3 * u3)) by (field; assumption).
      transitivity (gadd (gmul (w1 + (w2 + w3)) P) (gadd (gmul (w1 * (u1 * u1) + (w2 * (u2 * u2) + w3 * (u3 * u3))) L)
         (gmul (w1 * finv (u1 * u1) + (w2 * finv (u2 * u2) + w3 * finv (u3 * u3))) R))).
      - rewrite S1, S2, S3. module_red; ring.
      - clear. generalize (finv (u1 * u1)) (finv (u2 * u2)) (finv (u3 * u3)). intros. module_red; ring. }
    rewrite EP, E1, E2, E3. unfold y. clear EP E1 E2 E3 y.
    rewrite !lincomb_vadd by (unfold vadd; rewrite ?map2_length, !map_length; lia).
    rewrite !(dot_vadd_l K) by (unfold vadd; rewrite ?map2_length, !map_length; lia).
    rewrite !lincomb_scale, !(dot_scale_l K). clearbody y1 y2 y3 w1 w2 w3. module_red; ring.
  Qed.

  Lemma extract_ok (acc : list K -> K -> Prop) (ahat : list K -> K) (Q h P0 : G) (gs0 : list G) (a0 : list K) :
    (forall us, length a0 = (2 ^ length us)%nat -> ahat us = dot a0 (tab (2 ^ length us) (sval us))) ->
    (forall us, length a0 = (2 ^ length us)%nat -> (forall u, In u us -> u <> 0) -> leaf_eq acc ahat Q h gs0 P0 us) ->
    forall k t pre gs a P, length gs = (2 ^ k)%nat -> length a = (2 ^ k)%nat -> length a0 = (2 ^ (length pre + k))%nat ->
    (forall u, In u pre -> u <> 0) ->
    (forall us, length us = k -> lincomb (tab (2 ^ length (pre ++ us)) (sval (pre ++ us))) gs0 = lincomb (tab (2 ^ k) (sval us)) gs) ->
    (forall us, length us = k -> dot a0 (tab (2 ^ length (pre ++ us)) (sval (pre ++ us))) = dot a (tab (2 ^ k) (sval us))) ->
    (forall us, through [] (pre ++ us) P0 = through pre us P) ->
    all_runs acc ahat k pre t ->
    let '(x, b) := extract s ahat pre t in length x = (2 ^ k)%nat /\ P = gadd (gadd (lincomb x gs) (gmul (dot x a) Q)) (gmul b h).
  Proof.
    intros HA HL. induction k as [|k IH]; intros t pre gs a P Lg La La0 Nz Hg Ha Ht Hr.
    - destruct t as [c c'|]; [|contradiction]. destruct Hr as (Nc & Na & A1 & A2). cbn [extract].
      rewrite Nat.add_0_r in La0. pose proof (HL pre La0 Nz c c' Nc Na A1 A2) as X. cbv zeta in X.
      specialize (Hg [] eq_refl). specialize (Ha [] eq_refl). specialize (Ht []). rewrite app_nil_r in *. cbn [through] in Ht.
      rewrite Ht in X. rewrite Hg in X. rewrite (HA pre La0) in X at 3. rewrite Ha in X.
      destruct gs as [|g [|]]; try discriminate Lg. destruct a as [|y [|]]; try discriminate La. split; [reflexivity|].
      rewrite X. change (tab (2 ^ 0) (sval (K:=K) [])) with [1 : K]. cbn [lincomb]. rewrite !(dot_cons K), !(dot_nil_l K).
      generalize (finv ((c - c') * ahat pre)). intro e. module_red; ring.
    - destruct t as [|u1 u2 u3 t1 t2 t3]; [contradiction|]. destruct Hr as ((Z1 & Z2 & Z3) & (N12 & N13 & N23) & R1 & R2 & R3). cbn [extract].
      assert (ST : forall u t, u <> 0 -> all_runs acc ahat k (pre ++ [u]) t -> let '(x, b) := extract s ahat (pre ++ [u]) t in
        length x = (2 ^ k)%nat /\ next u pre P = gadd (gadd (lincomb (unfold_vec u x) gs) (gmul (dot (unfold_vec u x) a) Q)) (gmul b h)).
      { intros u t Zu Ru. specialize (IH t (pre ++ [u]) (foldv u gs) (foldv (G:=self_mod K) u a) (next u pre P)).
        assert (La' : length (foldv (G:=self_mod K) u a) = (2 ^ k)%nat) by (apply (foldv_length (G:=self_mod K) u k a); exact La).
        destruct (extract s ahat (pre ++ [u]) t) as [x b]. destruct IH as [Lx X].
        - now apply foldv_length.
        - exact La'.
        - rewrite La0, app_length. cbn [length]. f_equal. lia.
        - intros v Hv. apply in_app_or in Hv. destruct Hv as [Hv|[<-|[]]]; [now apply Nz|exact Zu].
        - intros us Lu. rewrite <- app_assoc. cbn [app]. rewrite (Hg (u :: us)) by (cbn; lia).
          rewrite (foldv_lincomb u k) by (try assumption; now rewrite tab_length). rewrite <- Lu, unfold_svec, Lu. cbn [length]. now rewrite Lu.
        - intros us Lu. rewrite <- app_assoc. cbn [app]. rewrite (Ha (u :: us)) by (cbn; lia).
          rewrite (dot_comm K a), (dot_comm K (foldv (G:=self_mod K) u a)). rewrite <- !lincomb_self.
          rewrite (foldv_lincomb (G:=self_mod K) u k) by (try assumption; now rewrite tab_length). rewrite <- Lu, unfold_svec, Lu. cbn [length]. now rewrite Lu.
        - intro us. rewrite <- app_assoc. cbn [app]. rewrite Ht. reflexivity.
        - exact Ru.
        - split; [exact Lx|]. rewrite X. rewrite (foldv_lincomb u k) by assumption. do 3 f_equal. rewrite <- !lincomb_self.
          apply (foldv_lincomb (G:=self_mod K) u k); assumption. }
      pose proof (ST u1 t1 Z1 R1) as X1. pose proof (ST u2 t2 Z2 R2) as X2. pose proof (ST u3 t3 Z3 R3) as X3. clear ST IH.
      destruct (extract s ahat (pre ++ [u1]) t1) as [x1 b1]. destruct (extract s ahat (pre ++ [u2]) t2) as [x2 b2]. destruct (extract s ahat (pre ++ [u3]) t3) as [x3 b3].
      destruct X1 as [L1 X1]. destruct X2 as [L2 X2]. destruct X3 as [L3 X3]. split.
      + unfold vadd. rewrite !map2_length, !map_length, !unfold_length, L1, L2, L3, pow2_S. lia.
      + unfold next in X1, X2, X3. eapply combine3; eauto.
  Qed.
End EX.

Section EL.
  Context {K : Fld} {G : Mod K} {E : Enc G}.
  Add Field Kel : (fth K).
  Local Open Scope fld_scope.

  Lemma mapM_pt (l : list E) : forall Ps, mapM (unpack (E:=E)) l = Ok Ps -> Ps = map pt l.
  Proof.
    induction l as [|e l IH]; intros Ps X; cbn [mapM] in X; [now injection X as <-|].
    destruct (unpack e) as [P| |] eqn:Ee; try discriminate X. cbn [bind] in X. destruct (mapM unpack l) as [Qs| |]; try discriminate X. cbn [bind] in X. injection X as <-.
    cbn [map]. rewrite <- (IH Qs eq_refl). apply unpack_inv in Ee. unfold pt at 1. now rewrite Ee.
  Qed.
  Lemma asked_cons (m : msg E) l : asked (m :: l) = ((if is_chal m then 1 else 0) + asked l)%nat.
  Proof. unfold asked. cbn [filter]. destruct (is_chal m); reflexivity. Qed.
  Lemma asked_scalars lb (xs : list K) (l : log E) : asked (app_scalars lb xs l) = asked l.
  Proof.
    unfold app_scalars. rewrite asked_cons. unfold asked. rewrite filter_app, app_length. cbn [filter is_chal].
    replace (filter is_chal (rev (map (MScalar lb) xs))) with ([] : list (msg E)); [reflexivity|].
    symmetry. rewrite <- map_rev. induction (rev xs) as [|y t IH]; [reflexivity|exact IH].
  Qed.
  Lemma rounds_length (s : strategy E) us : forall pre, length (rounds s pre us) = length us.
  Proof. induction us as [|u us IH]; intro pre; cbn; [reflexivity|now rewrite IH]. Qed.
  Lemma combine_fst_snd {A B} (l : list (A * B)) : combine (map fst l) (map snd l) = l.
  Proof. induction l as [|[x y] l IH]; cbn; congruence. Qed.

  Lemma coins_bullet (tr : log E) LR : forall pre us post tr1, length LR = length us -> asked tr1 = (asked tr + length pre)%nat ->
    exists tr2, bullet_challenges (coins tr (pre ++ us ++ post)) LR tr1 = (us, tr2) /\ asked tr2 = (asked tr + length (pre ++ us))%nat.
  Proof.
    induction LR as [|[L R] LR IH]; intros pre us post tr1 Ll Ea.
    - destruct us; [|discriminate]. exists tr1. cbn [bullet_challenges]. rewrite app_nil_r. now split.
    - destruct us as [|u us]; [discriminate|]. cbn [bullet_challenges challenge].
      assert (Eu : coins tr (pre ++ (u :: us) ++ post) (MChal "u" :: app_point "R" R (app_point "L" L tr1)) = u).
      { unfold coins, app_point. rewrite !asked_cons. cbn [is_chal]. rewrite Ea. rewrite app_nth2 by lia.
        replace (1 + (0 + (0 + (asked tr + length pre))) - asked tr - 1 - length pre)%nat with 0%nat by lia. reflexivity. }
      destruct (IH (pre ++ [u]) us post (MChal "u" :: app_point "R" R (app_point "L" L tr1))) as (tr2 & E2 & A2).
      + now injection Ll.
      + unfold app_point. rewrite !asked_cons, app_length. cbn [is_chal length]. lia.
      + rewrite <- !app_assoc in E2. cbn [app] in E2. cbn [app] in Eu |- *. rewrite Eu, E2. exists tr2. split; [reflexivity|]. rewrite A2, <- app_assoc. reflexivity.
  Qed.

  Lemma through_lincomb (s : strategy E) us : forall pre P, through s pre us P =
    gadd (gadd (lincomb (map (fun u => u * u) us) (map (fun e => pt (fst e)) (rounds s pre us)))
      (lincomb (map (fun u => finv u * finv u) us) (map (fun e => pt (snd e)) (rounds s pre us)))) P.
  Proof.
    induction us as [|u us IH]; intros pre P; cbn [through map rounds lincomb]; [module_red; ring|]. rewrite IH. unfold next. module_red; ring.
  Qed.

  Variables (stream : nat -> G) (k : nat) (g : dgens G) (tr : log E) (a : list K) (Cx Cy : E) (r : K) (s : strategy E).
  Hypotheses (Hg : dgens_new (2 ^ k) stream = Ok g) (La : length a = (2 ^ k)%nat).
  Definition lp_acc (us : list K) (c : K) : Prop :=
    exists t, lp_verify (coins tr (r :: us ++ [c])) (sends s us c) (2 ^ k) g tr a Cx Cy = Ok t.

  Lemma lp_acc_inv us c : length us = k -> (forall u, In u us -> u <> 0) -> lp_acc us c ->
    exists X Y, decompress E Cx = Some X /\ decompress E Cy = Some Y /\
    let ah := dot a (tab (2 ^ k) (sval us)) in let Q := gmul r (stream (2 ^ k)%nat) in
    gadd (gmul ah (gadd (gmul c (through s [] us (gadd X (gmul r Y)))) (pt (snd (st_last s us))))) (pt (fst (st_last s us))) =
    gadd (gmul (fst (st_resp s us c)) (gadd (lincomb (tab (2 ^ k) (sval us)) (tab (2 ^ k) stream)) (gmul ah Q)))
      (gmul (snd (st_resp s us c)) (stream (2 ^ k + 1)%nat)).
  Proof.
    intros Lu Nz [t X]. rewrite dgens_new_ok in Hg. injection Hg as <-. set (n := (2 ^ k)%nat) in *.
    unfold lp_verify in X. cbn [dgn dgN dg1] in X. rewrite La, !Nat.eqb_refl in X. unfold challenge in X.
    set (H := coins tr (r :: us ++ [c])) in *. set (tr1 := app_scalars "a" a _) in X.
    assert (A1 : asked tr1 = asked tr) by (unfold tr1; rewrite asked_scalars; unfold app_point, proto; now rewrite !asked_cons).
    assert (Er : H (MChal "r" :: tr1) = r).
    { unfold H, coins. rewrite asked_cons, A1. cbn [is_chal]. replace (1 + asked tr - asked tr - 1)%nat with 0%nat by lia. reflexivity. }
    rewrite Er in X. rewrite gens_scale_ok in X by reflexivity. cbn [bind gn gG gh map] in X.
    destruct (unpack Cx) as [Xp| |] eqn:DX; try discriminate X. cbn [bind] in X.
    destruct (unpack Cy) as [Yp| |] eqn:DY; try discriminate X. cbn [bind] in X.
    apply unpack_inv in DX. apply unpack_inv in DY. exists Xp, Yp. split; [exact DX|]. split; [exact DY|].
    set (Q := gmul r (stream n)) in *. unfold bullet_verify in X. cbn [lp_bullet sends] in X.
    set (pf := MkBP (map fst (rounds s [] us)) (map snd (rounds s [] us))) in *.
    assert (LL : length (bp_L pf) = k) by (cbn; now rewrite map_length, rounds_length).
    destruct (le_lt_dec 32 k) as [B|B].
    { exfalso. unfold verification_scalars in X. rewrite LL in X. rewrite (proj2 (Nat.leb_le 32 k) B) in X. discriminate X. }
    destruct (coins_bullet tr (rounds s [] us) [r] us [c] (MChal "r" :: tr1)) as (tr2 & Ech & A2).
    { now rewrite rounds_length. }
    { rewrite asked_cons, A1. cbn. lia. }
    pose proof (verification_scalars_ok H pf (MChal "r" :: tr1) us tr2) as V. rewrite LL in V. fold n in V.
    rewrite V in X; [|exact B| |exact Lu|exact Nz].
    2: { cbn [bp_L bp_R pf]. rewrite combine_fst_snd. exact Ech. }
    cbn [bind] in X. clear V. cbn [bp_L bp_R pf] in X.
    destruct (mapM unpack (map fst (rounds s [] us))) as [Ls| |] eqn:EL; try discriminate X. cbn [bind] in X.
    destruct (mapM unpack (map snd (rounds s [] us))) as [Rs| |] eqn:ER; try discriminate X. cbn [bind] in X.
    apply mapM_pt in EL. apply mapM_pt in ER. rewrite map_map in EL, ER.
    rewrite msm_ok in X by (rewrite !tab_length; lia). cbn [bind] in X. unfold inner_product in X. rewrite tab_length, La, Nat.eqb_refl in X. cbn [bind] in X.
    rewrite msm_ok in X by (subst Ls Rs; rewrite !app_length, !map_length, rounds_length; cbn [length]; lia). cbn [bind lp_delta lp_beta lp_z1 lp_z2] in X.
    rewrite !lincomb_app in X by (subst Ls Rs; rewrite !map_length, rounds_length; reflexivity).
    set (tr3 := app_point "beta" _ _) in X.
    assert (Ec : H (MChal "c" :: tr3) = c).
    { unfold H, coins. rewrite asked_cons. unfold tr3, app_point. rewrite !asked_cons. cbn [is_chal]. rewrite A2. cbn [app length].
      replace (1 + (0 + (0 + (asked tr + S (length us)))) - asked tr - 1)%nat with (S (length us)) by lia. cbn [nth]. rewrite app_nth2 by lia.
      now rewrite Nat.sub_diag. }
    rewrite Ec in X. unfold sends in X. cbn [lp_delta lp_beta lp_z1 lp_z2] in X.
    destruct (unpack (snd (st_last s us))) as [be| |] eqn:Eb; try discriminate X. cbn [bind] in X.
    destruct (unpack (fst (st_last s us))) as [de| |] eqn:Ed; try discriminate X. cbn [bind] in X. rewrite idx_0 in X. cbn [bind] in X.
    apply unpack_inv in Eb. apply unpack_inv in Ed.
    cbv zeta in X. match type of X with (if ?b then _ else _) = _ => destruct b eqn:Eq; [|discriminate X] end. apply eeqb_comp in Eq.
    rewrite through_lincomb. cbv zeta. unfold pt at 3 4. rewrite Eb, Ed, <- EL, <- ER. rewrite <- Eq. cbn [lincomb]. module_red; ring.
  Qed.

  Lemma lp_leaf us X Y : length us = k -> (forall u, In u us -> u <> 0) -> decompress E Cx = Some X -> decompress E Cy = Some Y ->
    leaf_eq s lp_acc (last_scalar a) (gmul r (stream (2 ^ k)%nat)) (stream (2 ^ k + 1)%nat) (tab (2 ^ k) stream) (gadd X (gmul r Y)) us.
  Proof.
    intros Lu Nz DX DY c c' Nc Na A1 A2. cbv zeta. unfold last_scalar in *. rewrite La in *. rewrite Lu.
    destruct (lp_acc_inv us c Lu Nz A1) as (X1 & Y1 & DX1 & DY1 & E1). destruct (lp_acc_inv us c' Lu Nz A2) as (X2 & Y2 & DX2 & DY2 & E2).
    rewrite DX in DX1, DX2. rewrite DY in DY1, DY2. injection DX1 as <-. injection DX2 as <-. injection DY1 as <-. injection DY2 as <-. cbv zeta in E1, E2.
    set (P := through s [] us (gadd X (gmul r Y))) in *. set (ah := dot a (tab (2 ^ k) (sval us))) in *.
    set (Q := gmul r (stream (2 ^ k)%nat)) in *. set (gh := lincomb (tab (2 ^ k) (sval us)) (tab (2 ^ k) stream)) in *. set (h := stream (2 ^ k + 1)%nat) in *.
    set (z1 := fst (st_resp s us c)) in *. set (z2 := snd (st_resp s us c)) in *. set (z1' := fst (st_resp s us c')) in *. set (z2' := snd (st_resp s us c')) in *.
    pose proof (sub_nz c c' Nc) as Nc'.
    transitivity (gmul (finv ((c - c') * ah)) (gadd (gadd (gmul ah (gadd (gmul c P) (pt (snd (st_last s us))))) (pt (fst (st_last s us))))
        (gopp (gadd (gmul ah (gadd (gmul c' P) (pt (snd (st_last s us))))) (pt (fst (st_last s us))))))).
    - module_red; try (field; split; assumption).
    - rewrite E1, E2. module_red; try (field; split; assumption).
  Qed.

  Lemma lp_extract t : all_runs lp_acc (last_scalar a) k [] t ->
    exists X Y, decompress E Cx = Some X /\ decompress E Cy = Some Y /\
    let '(x, b) := extract s (last_scalar a) [] t in length x = (2 ^ k)%nat /\
    gadd X (gmul r Y) = gadd (gadd (lincomb x (tab (2 ^ k) stream)) (gmul (r * dot x a) (stream (2 ^ k)%nat))) (gmul b (stream (2 ^ k + 1)%nat)).
  Proof.
    intro Hr.
    assert (D : exists X Y, decompress E Cx = Some X /\ decompress E Cy = Some Y).
    { assert (L : forall j pre t, (length pre + j)%nat = k -> (forall u, In u pre -> u <> 0) -> all_runs lp_acc (last_scalar a) j pre t ->
        exists us c, length us = k /\ (forall u, In u us -> u <> 0) /\ lp_acc us c).
      { clear. induction j as [|j IH]; intros pre [c c'|u1 u2 u3 t1 t2 t3] Lp Nz Hr; try contradiction.
        - destruct Hr as (_ & _ & A & _). exists pre, c. repeat split; [lia|assumption|assumption].
        - destruct Hr as ((Z1 & _) & _ & R1 & _). apply (IH _ _) in R1; [exact R1| |].
          + rewrite app_length. cbn [length]. lia.
          + intros v Hv. apply in_app_or in Hv. destruct Hv as [Hv|[<-|[]]]; [now apply Nz|exact Z1]. }
      destruct (L k [] t eq_refl ltac:(intros u []) Hr) as (us & c & Lu & Nz & A).
      destruct (lp_acc_inv us c Lu Nz A) as (X & Y & DX & DY & _). now exists X, Y. }
    destruct D as (X & Y & DX & DY). exists X, Y. split; [exact DX|]. split; [exact DY|].
    pose proof (extract_ok s lp_acc (last_scalar a) (gmul r (stream (2 ^ k)%nat)) (stream (2 ^ k + 1)%nat) (gadd X (gmul r Y)) (tab (2 ^ k) stream) a) as Ex.
    specialize (Ex ltac:(intros us Lu; unfold last_scalar; now rewrite Lu)).
    assert (PI : forall us : list K, length a = (2 ^ length us)%nat -> length us = k).
    { intros us Lu. rewrite La in Lu. apply Nat.pow_inj_r in Lu; lia. }
    specialize (Ex (fun us Lu Nz => lp_leaf us X Y (PI us Lu) Nz DX DY) k t [] (tab (2 ^ k) stream) a (gadd X (gmul r Y))).
    destruct (extract s (last_scalar a) [] t) as [x b]. destruct Ex as [Lx EQ].
    - apply tab_length.
    - exact La.
    - exact La.
    - intros u [].
    - intros us <-. reflexivity.
    - intros us <-. reflexivity.
    - reflexivity.
    - exact Hr.
    - split; [exact Lx|]. rewrite EQ. module_red; ring.
  Qed.

  (** with known openings of both commitments: a wrong value gives a relation *)
  Lemma lp_sound t x0 bx y by_ : r <> 0 -> length x0 = (2 ^ k)%nat ->
    opens (dgN g) Cx x0 bx -> opens1 (dg1 g) Cy y by_ -> all_runs lp_acc (last_scalar a) k [] t -> y <> dot x0 a ->
    let '(x, b) := extract s (last_scalar a) [] t in
    let w := map2 fsub x0 x ++ [r * (y - dot x a); bx + r * by_ - b] in
    length w = (2 ^ k + 2)%nat /\ lincomb w (tab (2 ^ k + 2) stream) = g0 /\ exists i, nth i w 0 <> 0.
  Proof.
    intros Nr Lx0 Ox Oy Hr Ny. destruct (lp_extract t Hr) as (X & Y & DX & DY & Ex). destruct (extract s (last_scalar a) [] t) as [x b]. destruct Ex as [Lx EQ].
    rewrite dgens_new_ok in Hg. injection Hg as <-. unfold opens1, opens in *. cbn [dgN dg1] in *. rewrite DX in Ox. rewrite DY in Oy.
    apply (f_equal (fun o => match o with Some z => z | None => g0 end)) in Ox. apply (f_equal (fun o => match o with Some z => z | None => g0 end)) in Oy.
    cbv zeta. assert (L1 : length (map2 fsub x0 x) = (2 ^ k)%nat) by (rewrite map2_length; lia). split; [|split].
    - rewrite app_length, L1. reflexivity.
    - replace (2 ^ k + 2)%nat with (S (S (2 ^ k))) by lia. rewrite !tab_Sr, <- app_assoc. cbn [app].
      rewrite lincomb_app by (rewrite L1, tab_length; reflexivity). rewrite lincomb_sub by lia. cbn [lincomb].
      replace (S (2 ^ k)) with (2 ^ k + 1)%nat by lia. unfold ped1, ped in Ox, Oy. cbn [gG gh lincomb] in Ox, Oy.
      subst X Y.
      transitivity (gadd (gadd (gadd (lincomb x0 (tab (2 ^ k) stream)) (gmul bx (stream (2 ^ k + 1)%nat)))
         (gmul r (gadd (gadd (gmul y (stream (2 ^ k)%nat)) g0) (gmul by_ (stream (2 ^ k + 1)%nat)))))
         (gopp (gadd (gadd (lincomb x (tab (2 ^ k) stream)) (gmul (r * dot x a) (stream (2 ^ k)%nat))) (gmul b (stream (2 ^ k + 1)%nat))))).
      + module_red; ring.
      + rewrite EQ. apply gadd_opp.
    - destruct (list_eq_dec (fun p q : K => match feqb_spec K p q with ReflectT _ e => left e | ReflectF _ e => right e end) x0 x) as [<-|Nx].
      + exists (2 ^ k)%nat. rewrite app_nth2 by lia. rewrite L1, Nat.sub_diag. cbn [nth]. apply (fmul_neq_0 K); [exact Nr|]. now apply sub_nz.
      + assert (D : exists i, (i < 2 ^ k)%nat /\ nth i x0 0 <> nth i x 0).
        { revert Lx0 Lx Nx. generalize (2 ^ k)%nat. clear. intro m. revert m x. induction x0 as [|p x0 IH]; intros m x L1 L2 Nx; destruct x as [|q x]; cbn in L1, L2.
          - now destruct Nx.
          - lia.
          - lia.
          - destruct m as [|m]; [lia|]. destruct (feqb_spec K p q) as [<-|N].
            + destruct (IH m x) as (i & Li & Ni); try lia; [congruence|]. exists (S i). split; [lia|exact Ni].
            + exists 0%nat. split; [lia|exact N]. }
        destruct D as (i & Li & Ni). exists i. rewrite app_nth1 by lia. rewrite (map2_nth fsub x0 x i 0 0 0) by lia. now apply sub_nz.
  Qed.
End EL.
