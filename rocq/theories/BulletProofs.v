From Coq Require Import String List Arith Bool Lia Field.
From Verif Require Import Base ListAux Field Vec MathModel PolyModel PolySpec PolyProofs CommitModel SigmaModel CommitSpec CommitProofs.
Import ListNotations.

Section BP.
  Context {K : Fld} {G : Mod K} {E : Enc G}.
  Add Field Kbp : (fth K).
  Local Open Scope fld_scope.

  (** * the scalars s_i *)
  Lemma testbit_lo i m : (i < 2 ^ m)%nat -> Nat.testbit i m = false.
  Proof. intro L. rewrite Nat.testbit_eqb. rewrite Nat.div_small by assumption. reflexivity. Qed.
  Lemma testbit_hi i m : (i < 2 ^ m)%nat -> Nat.testbit (2 ^ m + i) m = true.
  Proof.
    intro L. rewrite Nat.testbit_eqb. replace (2 ^ m + i)%nat with (i + 1 * 2 ^ m)%nat by lia.
    rewrite Nat.div_add by (apply Nat.pow_nonzero; lia). rewrite Nat.div_small by assumption. reflexivity.
  Qed.
  Lemma sval_high (us : list K) : forall n i, (length us <= n)%nat -> sval us (2 ^ n + i) = sval us i.
  Proof.
    induction us as [|u us IH]; intros n i L; [reflexivity|]. cbn [sval length] in *.
    rewrite (IH n i) by lia. rewrite (testbit_add_pow n i (length us)) by lia. reflexivity.
  Qed.
  Lemma sval_0 (us : list K) : (forall u, In u us -> u <> 0) -> sval us 0 = finv (fprod us).
  Proof.
    induction us as [|u us IH]; intro Nz.
    - cbn. field. apply f1_neq_0.
    - cbn [sval]. rewrite Nat.bits_0. rewrite (fprod_cons K).
      assert (u <> 0) by (apply Nz; now left). rewrite IH by (intros; apply Nz; now right).
      assert (fprod us <> 0).
      { clear IH. assert (N2 : forall v, In v us -> v <> 0) by (intros; apply Nz; now right). clear Nz.
        induction us as [|v us IH]; [apply f1_neq_0|]. rewrite (fprod_cons K). apply (fmul_neq_0 K); [apply N2; now left|].
        apply IH. intros w Hw. apply N2. now right. }
      field. split; assumption.
  Qed.
  Lemma sval_step (us : list K) : (forall u, In u us -> u <> 0) -> forall i, (1 <= i < 2 ^ length us)%nat ->
    sval us i = sval us (i - 2 ^ Nat.log2 i) * (nth (length us - 1 - Nat.log2 i) us 0 * nth (length us - 1 - Nat.log2 i) us 0) /\
    (Nat.log2 i < length us)%nat.
  Proof.
    induction us as [|u us IH]; intros Nz i [L1 L2]; [cbn in L2; lia|].
    assert (Hu : u <> 0) by (apply Nz; now left). cbn [length] in *.
    destruct (le_lt_dec (2 ^ length us) i) as [Hi|Hi].
    - assert (Lg : Nat.log2 i = length us) by (apply Nat.log2_unique; [lia|]; split; [assumption|]; assumption).
      rewrite Lg. replace (S (length us) - 1 - length us)%nat with 0%nat by lia. cbn [nth]. split; [|lia].
      set (j := (i - 2 ^ length us)%nat). replace i with (2 ^ length us + j)%nat by (unfold j; lia).
      rewrite pow2_S in L2.
      cbn [sval]. rewrite testbit_hi by (unfold j; lia). rewrite (sval_high us (length us) j) by lia.
      rewrite testbit_lo by (unfold j; lia). field. assumption.
    - destruct (IH (fun v Hv => Nz v (or_intror Hv)) i (conj L1 Hi)) as [IHe IHl]. split; [|lia].
      replace (S (length us) - 1 - Nat.log2 i)%nat with (S (length us - 1 - Nat.log2 i)) by lia. cbn [nth sval].
      rewrite !testbit_lo by lia. rewrite IHe. ring.
  Qed.
  Lemma s_vector_ok (us : list K) : (forall u, In u us -> u <> 0) -> forall m, (m < 2 ^ length us)%nat ->
    fold_left (s_step (map (fun u => u * u) us) (length us)) (seq 1 m) (Ok [finv (fprod us)]) = Ok (tab (S m) (sval us)).
  Proof.
    intros Nz m. induction m as [|m IH]; intro L.
    - cbn [seq fold_left]. cbn. now rewrite sval_0.
    - rewrite seq_S, fold_left_app, IH by lia. cbn [fold_left]. unfold s_step. cbn [bind].
      change (1 + m)%nat with (S m).
      destruct (sval_step us Nz (S m) ltac:(lia)) as [Es Ls].
      pose proof (proj2 (Nat.leb_le (1 + Nat.log2 (S m)) (length us)) ltac:(lia)) as Hl. rewrite Hl. clear Hl.
      set (q := (length us - 1 - Nat.log2 (S m))%nat) in *.
      rewrite (idx_nth _ q 0) by (rewrite map_length; unfold q; lia). cbn [bind].
      assert (2 ^ Nat.log2 (S m) <= S m)%nat by (apply Nat.log2_spec; lia).
      pose proof (pow2_pos (Nat.log2 (S m))). unfold pow2.
      rewrite (idx_nth _ _ 0) by (rewrite tab_length; lia). cbn [bind].
      rewrite (nth_tab (S m) (sval us)) by lia. rewrite (nth_map0 (fun u => u * u) us q 0 0) by (unfold q; lia).
      rewrite <- Es. rewrite (tab_Sr (S m)). reflexivity.
  Qed.
  Lemma svec_cons (u : K) us : tab (2 ^ length (u :: us)) (sval (u :: us)) =
    map (fmul (finv u)) (tab (2 ^ length us) (sval us)) ++ map (fmul u) (tab (2 ^ length us) (sval us)).
  Proof.
    cbn [length]. rewrite pow2_S, (tab_add _ _ (sval (u :: us))), !map_tab. f_equal; apply tab_ext; intros i Hi; cbn [sval].
    - now rewrite testbit_lo.
    - rewrite testbit_hi by assumption. now rewrite sval_high.
  Qed.

  (** * one folding step *)
  Lemma fold_step (u : K) : u <> 0 -> forall aL aR (GL GR : list G), length aR = length aL -> length GL = length aL -> length GR = length aL ->
    lincomb (map2 (fun l r => l * u + finv u * r) aL aR) (map2 (fun l r => gadd (gmul (finv u) l) (gmul u r)) GL GR) =
    gadd (gadd (lincomb aL GL) (lincomb aR GR)) (gadd (gmul (u * u) (lincomb aL GR)) (gmul (finv u * finv u) (lincomb aR GL))).
  Proof.
    intro Hu. induction aL as [|a aL IH]; intros [|b aR] [|g GL] [|h GR] L1 L2 L3; try discriminate; cbn [map2 lincomb].
    - module_red; ring.
    - injection L1 as L1. injection L2 as L2. injection L3 as L3. rewrite (IH aR GL GR L1 L2 L3). module_red; field; assumption.
  Qed.
  Lemma fold_svec (u : K) us (gs : list G) : length gs = (2 ^ length (u :: us))%nat ->
    lincomb (tab (2 ^ length us) (sval us)) (map2 (fun l r => gadd (gmul (finv u) l) (gmul u r)) (firstn (2 ^ length us) gs) (skipn (2 ^ length us) gs)) =
    lincomb (tab (2 ^ length (u :: us)) (sval (u :: us))) gs.
  Proof.
    intro L. rewrite svec_cons. cbn [length] in L. rewrite pow2_S in L. set (n := (2 ^ length us)%nat) in *.
    rewrite <- (firstn_skipn n gs) at 3. rewrite lincomb_app by (rewrite map_length, tab_length, firstn_length_le; lia).
    rewrite !lincomb_scale. set (s := tab n (sval us)). assert (Ls : length s = n) by apply tab_length.
    assert (LF : length (firstn n gs) = n) by (apply firstn_length_le; lia).
    assert (LR : length (skipn n gs) = n) by (rewrite skipn_length; lia).
    revert LF LR. rewrite <- Ls at 2 4. clear L Ls. clearbody s. generalize (firstn n gs) (skipn n gs). intros A. revert s. clear.
    induction A as [|x A IH]; intros [|s ss] [|y B] L1 L2; try discriminate; cbn [map2 lincomb].
    - module_red; ring.
    - injection L1 as L1. injection L2 as L2. rewrite (IH ss B L1 L2). module_red; ring.
  Qed.
End BP.

Section BL.
  Context {K : Fld} {G : Mod K} {E : Enc G}.
  Variable H : log E -> K.
  Add Field Kbl : (fth K).
  Local Open Scope fld_scope.

  Lemma map2_self (u : K) a : forall b, map2 (fun l r => l * finv u + u * r) a b = map2 (fun l r : self_mod K => gadd (gmul (finv u) l) (gmul u r)) a b.
  Proof. induction a as [|x a IH]; intros [|y b]; cbn [map2]; try reflexivity. rewrite IH. f_equal. cbn. ring. Qed.

  Lemma bullet_loop_spec (Q Hg : G) : forall k Gv a b blind blinds tr r,
    length Gv = (2 ^ k)%nat -> length a = (2 ^ k)%nat -> length b = (2 ^ k)%nat ->
    bullet_loop (E:=E) H k Q Hg Gv a b blind blinds tr = Ok r ->
    exists us Ls Rs, length us = k /\ (forall u, In u us -> u <> 0) /\
      br_L r = map (compress E) Ls /\ br_R r = map (compress E) Rs /\ length Ls = k /\ length Rs = k /\
      bullet_challenges H (combine (br_L r) (br_R r)) tr = (us, br_tr r) /\
      br_G r = lincomb (tab (2 ^ k) (sval us)) Gv /\
      br_b r = dot b (tab (2 ^ k) (sval us)) /\
      gadd (gadd (gmul (br_a r) (br_G r)) (gmul (br_a r * br_b r) Q)) (gmul (br_blind r) Hg) =
      gadd (gadd (lincomb (map (fun u => u * u) us) Ls) (lincomb (map (fun u => finv u * finv u) us) Rs))
           (gadd (gadd (lincomb a Gv) (gmul (dot a b) Q)) (gmul blind Hg)).
  Proof.
    induction k as [|k IH]; intros Gv a b blind blinds tr r LG La Lb Hr; cbn [bullet_loop] in Hr.
    - destruct a as [|a0 [|]]; try discriminate La. destruct b as [|b0 [|]]; try discriminate Lb.
      destruct Gv as [|G0 [|]]; try discriminate LG. rewrite !idx_0 in Hr. cbn [bind] in Hr. injection Hr as <-.
      exists [], [], []. cbn [br_L br_R br_a br_b br_G br_blind br_tr length combine bullet_challenges map].
      repeat split; try (now intros u []).
      + cbn. module_red; ring.
      + cbn. ring.
      + cbn [lincomb]. rewrite (dot_cons K), (dot_nil_l K). module_red; ring.
    - change (pow2 k) with (2 ^ k)%nat in Hr. rewrite pow2_S in *. set (n := (2 ^ k)%nat) in *.
      set (aL := firstn n a) in *. set (aR := skipn n a) in *. set (bL := firstn n b) in *. set (bR := skipn n b) in *.
      set (GL := firstn n Gv) in *. set (GR := skipn n Gv) in *.
      assert (LaL : length aL = n) by (apply firstn_length_le; lia). assert (LaR : length aR = n) by (unfold aR; rewrite skipn_length; lia).
      assert (LbL : length bL = n) by (apply firstn_length_le; lia). assert (LbR : length bR = n) by (unfold bR; rewrite skipn_length; lia).
      assert (LGL : length GL = n) by (apply firstn_length_le; lia). assert (LGR : length GR = n) by (unfold GR; rewrite skipn_length; lia).
      unfold inner_product in Hr. rewrite LaL, LbR, LaR, LbL, Nat.eqb_refl in Hr. cbn [bind] in Hr.
      destruct blinds as [|[blL blR] blinds]; [discriminate Hr|].
      rewrite !msm_ok in Hr by (rewrite !app_length; cbn [length]; lia). cbn [bind] in Hr.
      set (Lp := lincomb (aL ++ [dot aL bR] ++ [blL]) (GR ++ [Q] ++ [Hg])) in *.
      set (Rp := lincomb (aR ++ [dot aR bL] ++ [blR]) (GL ++ [Q] ++ [Hg])) in *.
      unfold challenge in Hr. set (tr1 := app_point "R" (compress E Rp) (app_point "L" (compress E Lp) tr)) in *.
      set (u := H (MChal "u" :: tr1)) in *. unfold inv_unwrap in Hr. destruct (feqb_spec K u 0) as [|Hu]; [discriminate Hr|]. cbn [bind] in Hr.
      set (a' := map2 (fun l r => l * u + finv u * r) aL aR) in *. set (b' := map2 (fun l r => l * finv u + u * r) bL bR) in *.
      set (G' := map2 (fun l r => gadd (gmul (finv u) l) (gmul u r)) GL GR) in *.
      destruct (bullet_loop H k Q Hg G' a' b' _ blinds (MChal "u" :: tr1)) as [rest| |] eqn:Er; try discriminate Hr. cbn [bind] in Hr. injection Hr as <-.
      destruct (fun p q r => IH G' a' b' _ blinds _ rest p q r Er) as (us & Ls & Rs & Lus & Nz & EL & ER & LL & LR & Ech & EG & Eb & Eq);
        [unfold G'; rewrite map2_length; lia|unfold a'; rewrite map2_length; lia|unfold b'; rewrite map2_length; lia|].
      exists (u :: us), (Lp :: Ls), (Rp :: Rs). cbn [br_L br_R br_a br_b br_G br_blind br_tr].
      split; [cbn; congruence|]. split; [intros v [<-|Hv]; auto|]. split; [cbn; congruence|]. split; [cbn; congruence|].
      split; [cbn; congruence|]. split; [cbn; congruence|].
      split. { cbn [combine bullet_challenges]. unfold challenge. fold tr1. fold u. rewrite Ech. reflexivity. }
      assert (E1 : br_G rest = lincomb (tab (n + n) (sval (u :: us))) Gv).
      { rewrite EG. unfold G', GL, GR, n. rewrite <- Lus. rewrite fold_svec by (cbn [length]; rewrite Lus, pow2_S; exact LG).
        cbn [length]. now rewrite Lus, pow2_S. }
      assert (E2 : br_b rest = dot b (tab (n + n) (sval (u :: us)))).
      { rewrite Eb. rewrite !(dot_comm K _ (tab _ _)). rewrite <- !lincomb_self. unfold b'. rewrite map2_self. unfold bL, bR, n. rewrite <- Lus.
        rewrite (fold_svec (G:=self_mod K)) by (cbn [length]; rewrite Lus, pow2_S; exact Lb).
        cbn [length]. now rewrite Lus, pow2_S. }
      split; [exact E1|]. split; [exact E2|].
      rewrite Eq. cbn [map lincomb].
      assert (F1 : lincomb a' G' = gadd (gadd (lincomb aL GL) (lincomb aR GR)) (gadd (gmul (u * u) (lincomb aL GR)) (gmul (finv u * finv u) (lincomb aR GL))))
        by (unfold a', G'; apply fold_step; [exact Hu|congruence..]).
      assert (F2 : dot a' b' = dot aL bL + dot aR bR + (u * u * dot aL bR + finv u * finv u * dot aR bL)).
      { rewrite <- !lincomb_self. unfold a', b'. rewrite map2_self. rewrite (fold_step (G:=self_mod K) u Hu aL aR bL bR (eq_trans LaR (eq_sym LaL)) (eq_trans LbL (eq_sym LaL)) (eq_trans LbR (eq_sym LaL))). cbn. ring. }
      assert (F3 : lincomb a Gv = gadd (lincomb aL GL) (lincomb aR GR)).
      { rewrite <- (firstn_skipn n a). rewrite <- (firstn_skipn n Gv). fold aL aR GL GR. apply lincomb_app. congruence. }
      assert (F4 : dot a b = dot aL bL + dot aR bR).
      { rewrite <- (firstn_skipn n a). rewrite <- (firstn_skipn n b). fold aL aR bL bR. apply (dot_app K). congruence. }
      rewrite F1, F2, F3, F4. unfold Lp, Rp. rewrite !lincomb_app by (congruence || reflexivity). cbn [lincomb].
      module_red; ring.
  Qed.

  Lemma unless_mono lb (v : K) k (P Q : Prop) : (P -> Q) -> unless H lb v k P -> unless H lb v k Q.
  Proof. intros PQ (ls & L & F & N). exists ls. auto. Qed.
  Lemma unless_triv lb (v : K) k (P : Prop) : P -> unless H lb v k P.
  Proof.
    intro p. exists (repeat [MChal lb] k). split; [apply repeat_length|]. split; [|auto].
    intros l Hl. apply repeat_spec in Hl. exists []. exact Hl.
  Qed.
  Lemma unless_step lb (v : K) k (P : Prop) l : (H (MChal lb :: l) <> v -> unless H lb v k P) -> unless H lb v (S k) P.
  Proof.
    intro U. destruct (feqb_spec K (H (MChal lb :: l)) v) as [X|X].
    - exists (repeat (MChal lb :: l) (S k)). split; [apply repeat_length|]. split.
      + intros l' Hl. apply repeat_spec in Hl. exists l. exact Hl.
      + intro N. now destruct (N (MChal lb :: l) (or_introl eq_refl)).
    - destruct (U X) as (ls & L & F & N). exists ((MChal lb :: l) :: ls). split; [cbn; congruence|]. split.
      + intros l' [<-|Hl]; [now exists l|auto].
      + intro N'. apply N. intros l' Hl. apply N'. now right.
  Qed.

  Lemma bullet_loop_run (Q Hg : G) : forall k Gv a b blind blinds tr,
    length Gv = (2 ^ k)%nat -> length a = (2 ^ k)%nat -> length b = (2 ^ k)%nat -> (k <= length blinds)%nat ->
    unless H "u" 0 k (exists r, bullet_loop (E:=E) H k Q Hg Gv a b blind blinds tr = Ok r).
  Proof.
    induction k as [|k IH]; intros Gv a b blind blinds tr LG La Lb Lbl; cbn [bullet_loop].
    - destruct a as [|a0 [|]]; try discriminate La. destruct b as [|b0 [|]]; try discriminate Lb.
      destruct Gv as [|G0 [|]]; try discriminate LG. rewrite !idx_0. cbn [bind]. apply unless_triv. eexists. reflexivity.
    - change (pow2 k) with (2 ^ k)%nat. rewrite pow2_S in *. set (n := (2 ^ k)%nat) in *.
      unfold inner_product. rewrite !firstn_length_le, !skipn_length by lia.
      replace (length a - n)%nat with n by lia. replace (length b - n)%nat with n by lia. rewrite Nat.eqb_refl. cbn [bind].
      destruct blinds as [|[blL blR] blinds]; [cbn in Lbl; lia|].
      rewrite !msm_ok by (rewrite !app_length, firstn_length_le, skipn_length by lia || rewrite !app_length, skipn_length, firstn_length_le by lia; cbn [length]; lia).
      cbn [bind]. unfold challenge. set (tr1 := app_point "R" _ _). apply (unless_step _ _ _ _ tr1). intro Nz.
      unfold inv_unwrap. destruct (feqb_spec K (H (MChal "u" :: tr1)) 0) as [X|_]; [contradiction|]. cbn [bind].
      match goal with |- unless _ _ _ _ (exists r, (do rest <- bullet_loop H k Q Hg ?g ?aa ?bb ?bl blinds ?t; _) = Ok r) =>
        eapply unless_mono; [|apply (IH g aa bb bl blinds t)] end.
      + intros [rest ->]. cbn [bind]. eexists. reflexivity.
      + rewrite map2_length, firstn_length_le, skipn_length; lia.
      + rewrite map2_length, firstn_length_le, skipn_length; lia.
      + rewrite map2_length, firstn_length_le, skipn_length; lia.
      + cbn in Lbl. lia.
  Qed.

  Lemma fprod_nz (us : list K) : (forall u, In u us -> u <> 0) -> fprod us <> 0.
  Proof.
    induction us as [|u us IH]; intro Nz; [apply f1_neq_0|]. rewrite (fprod_cons K). apply (fmul_neq_0 K); [apply Nz; now left|].
    apply IH. intros; apply Nz; now right.
  Qed.
  Lemma batch_inv_ok (us : list K) : (forall u, In u us -> u <> 0) -> batch_inv us = Ok (map finv us, finv (fprod us)).
  Proof. intro Nz. unfold batch_inv. destruct (feqb_spec K (fprod us) 0) as [X|]; [now apply fprod_nz in X|reflexivity]. Qed.
  Lemma mapM_unpack (l : list G) : mapM (unpack (E:=E)) (map (compress E) l) = Ok l.
  Proof. induction l as [|x l IH]; [reflexivity|]. cbn [map mapM]. rewrite unpack_comp. cbn [bind]. rewrite IH. reflexivity. Qed.

  Lemma verification_scalars_ok (pf : bproof E) tr us tr' : (length (bp_L pf) < 32)%nat ->
    bullet_challenges H (combine (bp_L pf) (bp_R pf)) tr = (us, tr') -> length us = length (bp_L pf) -> (forall u, In u us -> u <> 0) ->
    verification_scalars H pf (2 ^ length (bp_L pf)) tr =
      Ok (map (fun u => u * u) us, map (fun u => finv u * finv u) us, tab (2 ^ length (bp_L pf)) (sval us), tr').
  Proof.
    intros L32 Ech Lus Nz. unfold verification_scalars.
    destruct (Nat.leb_spec 32 (length (bp_L pf))) as [X|_]; [lia|]. unfold pow2. rewrite Nat.eqb_refl. cbn [negb]. rewrite Ech.
    rewrite (batch_inv_ok us Nz). cbn [bind]. rewrite Lus, Nat.leb_refl. unfold s_vector. rewrite <- Lus.
    rewrite (s_vector_ok us Nz) by (pose proof (pow2_pos (length us)); lia). cbn [bind].
    rewrite map_map. replace (S (2 ^ length us - 1)) with (2 ^ length us)%nat by (pose proof (pow2_pos (length us)); lia). reflexivity.
  Qed.

  Lemma log_2_ok k : log_2 (2 ^ k) = Ok k.
  Proof. apply log_2_pow. Qed.

  Lemma bullet_complete (tr : log E) (Q : G) Gv Hg a b blind blinds k : (k < 32)%nat ->
    length Gv = (2 ^ k)%nat -> length a = (2 ^ k)%nat -> length b = (2 ^ k)%nat -> length blinds = (2 * k)%nat ->
    (forall pf Gamma_hat a_hat b_hat g_hat blind_fin tr',
      bullet_prove H tr Q Gv Hg a b blind blinds = Ok (pf, Gamma_hat, a_hat, b_hat, g_hat, blind_fin, tr') ->
      Gamma_hat = gadd (gadd (gmul a_hat g_hat) (gmul (a_hat * b_hat) Q)) (gmul blind_fin Hg) /\
      bullet_verify H pf (2 ^ k) b tr (gadd (gadd (lincomb a Gv) (gmul (dot a b) Q)) (gmul blind Hg)) Gv =
        Ok (g_hat, Gamma_hat, b_hat, tr')) /\
    unless H "u" 0 k (exists r, bullet_prove H tr Q Gv Hg a b blind blinds = Ok r).
  Proof.
    intros L32 LG La Lb Lbl.
    assert (P0 : forall X, bullet_prove H tr Q Gv Hg a b blind blinds = X ->
      X = (do r <- bullet_loop H k Q Hg Gv a b blind blinds tr;
           Ok (MkBP (br_L r) (br_R r), gadd (gadd (gmul (br_a r) (br_G r)) (gmul (br_a r * br_b r) Q)) (gmul (br_blind r) Hg), br_a r, br_b r, br_G r, br_blind r, br_tr r))).
    { intros X <-. unfold bullet_prove. rewrite LG. unfold is_pow2. rewrite next_pow2_pow, Nat.eqb_refl.
      pose proof (pow2_pos k). destruct (Nat.ltb_spec 0 (2 ^ k)) as [_|]; [|lia]. cbn [andb]. rewrite log_2_ok. cbn [bind].
      rewrite La, Lb, Lbl, !Nat.eqb_refl. destruct (bullet_loop H k Q Hg Gv a b blind blinds tr) as [r| |]; cbn [bind]; try reflexivity.
      rewrite msm_ok by (cbn; lia). cbn [bind lincomb]. do 6 f_equal. f_equal. module_red; ring. }
    split.
    - intros pf Gamma_hat a_hat b_hat g_hat blind_fin tr' Hp. apply P0 in Hp. symmetry in Hp.
      destruct (bullet_loop H k Q Hg Gv a b blind blinds tr) as [r| |] eqn:Er; try discriminate Hp. cbn [bind] in Hp.
      injection Hp as <- <- <- <- <- <- <-. split; [reflexivity|].
      destruct (bullet_loop_spec Q Hg k Gv a b blind blinds tr r LG La Lb Er) as (us & Ls & Rs & Lus & Nz & EL & ER & LL & LR & Ech & EG & Eb & Eq).
      unfold bullet_verify.
      assert (LbL : length (br_L r) = k) by (rewrite EL, map_length; exact LL).
      pose proof (verification_scalars_ok (MkBP (br_L r) (br_R r)) tr us (br_tr r)) as V. cbn [bp_L bp_R] in V. rewrite LbL in V.
      rewrite V by (auto; lia). cbn [bind bp_L bp_R]. rewrite EL, ER, !mapM_unpack. cbn [bind].
      rewrite msm_ok by (rewrite tab_length; lia). cbn [bind]. unfold inner_product. rewrite tab_length, Lb, Nat.eqb_refl. cbn [bind].
      rewrite msm_ok by (rewrite !app_length, !map_length; cbn [length]; lia). cbn [bind].
      rewrite !lincomb_app by (rewrite map_length; congruence). rewrite <- EG, <- Eb. do 4 f_equal. rewrite Eq. cbn [lincomb]. module_red; ring.
    - eapply unless_mono; [|apply (bullet_loop_run Q Hg k Gv a b blind blinds tr LG La Lb ltac:(lia))]. intros [r Er].
      destruct (bullet_prove H tr Q Gv Hg a b blind blinds) as [x| |] eqn:Ep.
      + now exists x.
      + specialize (P0 _ eq_refl). rewrite Er in P0. discriminate P0.
      + specialize (P0 _ eq_refl). rewrite Er in P0. discriminate P0.
  Qed.
End BL.
