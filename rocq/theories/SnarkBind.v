(** What the final transcript of an accepting verifier of the SNARK determines. *)
From Coq Require Import String List Arith Bool Lia.
From Verif Require Import Base ListAux Field Vec MathModel PolyModel PolyProofs R1csModel CommitModel SigmaModel CommitSpec SumModel ProdModel ProdSoundB NizkModel NizkApi BindSpec BindProofs SparModel SnarkModel SnarkBindSpec.
Import ListNotations.

Section Bind.
  Context {K : Fld} {G : Mod K} {E : Enc G}.
  Variables H H' : log E -> K.
  Local Open Scope fld_scope.
  Ltac step X := repeat match type of X with
      | bind ?c _ = _ => let N := fresh "R" in destruct c eqn:N; rewrite ?bind_Ok in *; [|discriminate X|discriminate X]
      | (if ?b then _ else _) = _ => let N := fresh "B" in destruct b eqn:N; [|discriminate X]
      | (let '(_, _) := ?p in _) = _ => destruct p eqn:?
      end.
  Ltac nats := repeat match goal with N : Nat.eqb _ _ = true |- _ => apply Nat.eqb_eq in N end.
  Lemma unipoly_inj l xs ys (t t' : log E) : app_unipoly l xs t = app_unipoly l ys t' -> xs = ys /\ t = t'.
  Proof. unfold app_unipoly. intro X. injection X as X. apply rev_sep in X; [exact X|congruence|discriminate]. Qed.
  Lemma decompress_inj (c c' : list K) e e' p : PolyModel.decompress c e = Ok p -> PolyModel.decompress c' e' = Ok p -> c = c'.
  Proof. destruct c, c'; cbn; try discriminate. intros X Y. injection X as <-. injection Y. intros. congruence. Qed.
  Lemma scr_inj ps : forall ps' e e' d tr tr' ef ef' r r' t, length ps = length ps' ->
    sc_rounds H ps e d tr = Ok (ef, r, t) -> sc_rounds H' ps' e' d tr' = Ok (ef', r', t) -> ps = ps' /\ tr = tr'.
  Proof.
    induction ps as [|p ps IH]; intros [|p' ps'] e e' d tr tr' ef ef' r r' t Le X Y; try discriminate Le; cbn [sc_rounds challenge] in X, Y.
    { injection X as _ _ <-. injection Y as _ _ <-. auto. }
    step X. step Y. injection X as _ _ <-. injection Y as _ _ ->.
    match goal with N : sc_rounds H _ _ _ _ = _, N' : sc_rounds H' _ _ _ _ = _ |- _ => destruct (IH _ _ _ _ _ _ _ _ _ _ _ (f_equal pred Le) N N') as [-> T] end.
    injection T as T. apply rev_sep in T; [|congruence|discriminate]. destruct T as [-> ->]. split; [|reflexivity]. f_equal. eapply decompress_inj; eassumption.
  Qed.
  Lemma claims_log (l r : list K) : forall tr : log E, app_claims l r tr = rev (flat_map (fun '(a, b) => [MScalar "claim_prod_left" a; MScalar "claim_prod_right" b]) (combine l r)) ++ tr.
  Proof.
    unfold app_claims. induction (combine l r) as [|[a b] q IH]; intro tr; cbn [fold_left flat_map app rev]; [reflexivity|].
    rewrite IH. unfold app_scalar. rewrite <- !app_assoc. reflexivity.
  Qed.
  Lemma dotp_log (l r w : list K) : forall tr : log E, app_dotp l r w tr =
    rev (flat_map (fun '(a, b, c) => [MScalar "claim_dotp_left" a; MScalar "claim_dotp_right" b; MScalar "claim_dotp_weight" c]) (combine (combine l r) w)) ++ tr.
  Proof.
    unfold app_dotp. induction (combine (combine l r) w) as [|[[a b] c] q IH]; intro tr; cbn [fold_left flat_map app rev]; [reflexivity|].
    rewrite IH. unfold app_scalar. rewrite <- !app_assoc. reflexivity.
  Qed.
  Lemma pairs_inj {A} (f g : A -> msg E) : (forall a b, f a = f b -> a = b) -> (forall a b, g a = g b -> a = b) -> forall (xs ys : list (A * A)) t t', length xs = length ys ->
    rev (flat_map (fun '(a, b) => [f a; g b]) xs) ++ t = rev (flat_map (fun '(a, b) => [f a; g b]) ys) ++ t' -> xs = ys /\ t = t'.
  Proof.
    intros F1 G1. induction xs as [|[a b] xs IH]; intros [|[a' b'] ys] t t' Le X; try discriminate Le; [auto|].
    cbn [flat_map app rev] in X. rewrite <- !app_assoc in X. cbn [app] in X. apply IH in X; [|now injection Le]. destruct X as [-> X]. injection X as X1 X2 X3. apply F1 in X2. apply G1 in X1. subst. auto.
  Qed.
  Lemma claims_inj (l r l' r' : list K) n (tr tr' : log E) : length l = n -> length r = n -> length l' = n -> length r' = n ->
    app_claims l r tr = app_claims l' r' tr' -> l = l' /\ r = r' /\ tr = tr'.
  Proof.
    intros L1 L2 L3 L4 X. rewrite !claims_log in X. apply pairs_inj in X; [|congruence|congruence|rewrite !combine_length; lia].
    destruct X as [X ->]. apply combine_inj in X; [|lia..]. destruct X as [-> ->]. auto.
  Qed.
  Lemma dotp_inj xs : forall ys (t t' : log E), (forall v q, t <> MScalar "claim_dotp_weight" v :: q) -> (forall v q, t' <> MScalar "claim_dotp_weight" v :: q) ->
    rev (flat_map (fun '(a, b, c) => [MScalar "claim_dotp_left" a; MScalar "claim_dotp_right" b; MScalar "claim_dotp_weight" c]) xs) ++ t =
    rev (flat_map (fun '(a, b, c) => [MScalar "claim_dotp_left" a; MScalar "claim_dotp_right" b; MScalar "claim_dotp_weight" c]) ys) ++ t' -> xs = ys /\ t = t'.
  Proof.
    induction xs as [|[[a b] c] xs IH] using rev_ind; intros ys t t' N1 N2 X; destruct ys as [|[[a' b'] c'] ys _] using rev_ind.
    - auto.
    - rewrite flat_map_app, rev_app_distr in X. cbn [flat_map app rev] in X. exfalso. eapply N1, X.
    - rewrite flat_map_app, rev_app_distr in X. cbn [flat_map app rev] in X. exfalso. eapply N2. symmetry. apply X.
    - rewrite !flat_map_app, !rev_app_distr in X. cbn [flat_map app rev] in X. injection X as -> -> -> X. apply IH in X; auto. destruct X as [-> ->]. auto.
  Qed.
  Lemma claims_hd (l r : list K) n (tr : log E) : length l = S n -> length r = S n -> exists v q, app_claims l r tr = MScalar "claim_prod_right" v :: q.
  Proof.
    intros L1 L2. rewrite claims_log. assert (Lc : length (combine l r) = S n) by (rewrite combine_length; lia).
    destruct (combine l r) as [|x q _] using rev_ind; [discriminate Lc|]. rewrite flat_map_app, rev_app_distr. destruct x as [a b]. cbn [flat_map app rev]. eauto.
  Qed.
  Lemma pbl_inj np dotp dotp' dv dv' last pfs : forall pfs' i cl cl' rand rand' cd cd' tr tr' r r' t, length pfs = length pfs' -> length dv = length dv' -> length cl = length cl' ->
    pb_verify_loop H dotp (S np) dv last pfs i cl rand cd tr = Ok (r, t) -> pb_verify_loop H' dotp' (S np) dv' last pfs' i cl' rand' cd' tr' = Ok (r', t) ->
    pfs = pfs' /\ tr = tr' /\ ((i <= last < i + length pfs)%nat -> combine (combine (fst (fst dotp)) (snd (fst dotp))) (snd dotp) = combine (combine (fst (fst dotp')) (snd (fst dotp'))) (snd dotp')).
  Proof.
    induction pfs as [|p pfs IH]; intros [|p' pfs'] i cl cl' rand rand' cd cd' tr tr' r r' t Le Ld Lc X Y; try discriminate Le; cbn [pb_verify_loop] in X, Y.
    { injection X as _ <-. injection Y as _ <-. repeat split; auto. cbn [length]. lia. }
    unfold challenge in X, Y. step X. step Y. nats.
    destruct (fun L => IH _ _ _ _ _ _ _ _ _ _ _ _ _ (f_equal pred Le) Ld L X Y) as (-> & T & Q); [unfold condense; rewrite !map2_length; lia|]. clear IH X Y. injection T as T.
    match goal with N : sc_verify H _ _ _ _ _ = Ok (_, _, ?u), N' : sc_verify H' _ _ _ _ _ = Ok (_, _, ?u') |- _ => rename N into S1, N' into S2, u into u1, u' into u2 end.
    assert (T2 : app_claims (by_left p) (by_right p) u1 = app_claims (by_left p') (by_right p') u2 /\
                 (Nat.eqb i last = true -> combine (combine (fst (fst dotp)) (snd (fst dotp))) (snd dotp) = combine (combine (fst (fst dotp')) (snd (fst dotp'))) (snd dotp'))).
    { destruct (Nat.eqb i last); [|split; [exact T|discriminate]]. rewrite !dotp_log in T. apply dotp_inj in T; [tauto|..].
      - intros v q Z. destruct (claims_hd (by_left p) (by_right p) np u1) as (v' & q' & W); [lia..|]. rewrite W in Z. discriminate Z.
      - intros v q Z. destruct (claims_hd (by_left p') (by_right p') np u2) as (v' & q' & W); [lia..|]. rewrite W in Z. discriminate Z. }
    destruct T2 as [T2 Q2]. apply (claims_inj _ _ _ _ (S np)) in T2; [|lia..]. destruct T2 as (E1 & E2 & ->).
    unfold sc_verify in S1, S2. step S1. step S2. nats.
    match goal with N : sc_rounds H _ _ _ _ = _, N' : sc_rounds H' _ _ _ _ = _ |- _ => destruct (fun L => scr_inj _ _ _ _ _ _ _ _ _ _ _ _ L N N') as [E3 ->] end; [congruence|].
    match goal with N : challenges H _ ?n _ = _, N' : challenges H' _ ?n' _ = _ |- _ => replace n' with n in N'; [pose proof (ch_inj _ _ _ _ _ _ _ _ _ N N') as T4|] end.
    2:{ destruct (Nat.eqb i last); [rewrite !app_length; congruence|exact Lc]. }
    subst tr'. split; [|split; [reflexivity|]].
    - f_equal. destruct p, p'; cbn in *; congruence.
    - intro Hl. destruct (Nat.eqb i last) eqn:El; [now apply Q2|]. apply Nat.eqb_neq in El. apply Q. cbn [length] in Hl. lia.
  Qed.
  Lemma pcb_inj pf pf' np pv pv' dv dv' len tr tr' r r' t : length pv = S np -> length pv' = S np -> length dv = length dv' ->
    pcb_verify H pf pv dv len tr = Ok (r, t) -> pcb_verify H' pf' pv' dv' len tr' = Ok (r', t) ->
    bp_layers pf = bp_layers pf' /\ tr = tr' /\ (snd (fst r) <> [] -> pb_messages pf = pb_messages pf').
  Proof.
    intros L1 L2 L3 X Y. unfold pcb_verify in X, Y. step X. step Y. nats.
    match goal with N : log_2 _ = Ok ?a |- _ => rename a into k, N into Lk end.
    assert (Z : snd (fst r) <> [] -> (1 <= k)%nat).
    { intro Q. destruct k; [|lia]. destruct (bp_layers pf); [|discriminate]. cbn [pb_verify_loop] in X. injection X as <- _. now contradiction Q. }
    rewrite L1 in X. rewrite L2 in Y. destruct (fun L L' => pbl_inj _ _ _ _ _ _ _ _ _ _ _ _ _ _ _ _ _ _ _ _ L L3 L' X Y) as (Q1 & -> & Q2); [congruence..|].
    split; [exact Q1|]. split; [reflexivity|]. intro Q. apply Z in Q. unfold pb_messages. rewrite Q1 in *. destruct (bp_dotp pf) as [[dl dr] dw], (bp_dotp pf') as [[dl' dr'] dw']. cbn [fst snd] in Q2. rewrite Q2; [reflexivity|lia].
  Qed.
  Lemma ch_log (F : log E -> K) l n : forall t xs u, challenges F l n t = (xs, u) -> u = repeat (MChal l) n ++ t.
  Proof.
    induction n as [|n IH]; intros t xs u X; cbn [challenges challenge] in X; [injection X as _ <-; reflexivity|].
    destruct (challenges F l n _) as [ys u'] eqn:Ec. injection X as _ <-. apply IH in Ec. rewrite Ec. cbn [repeat]. rewrite repeat_cons, <- app_assoc. reflexivity.
  Qed.
  Lemma n_to_one_inj l lc lj ev ev' r r' tr tr' rj rj' v v' t : n_to_one H l lc lj ev r tr = Ok (rj, v, t) -> n_to_one H' l lc lj ev' r' tr' = Ok (rj', v', t) -> ev = ev' /\ tr = tr'.
  Proof.
    unfold n_to_one. intros X Y. step X. step Y. injection X as _ _ <-. unfold app_scalar in Y. injection Y as _ _ _ Y.
    repeat match goal with N : challenges _ _ _ _ = _ |- _ => apply ch_log in N end. subst.
    unfold app_scalars in Y.
    match type of Y with repeat _ ?n ++ _ = repeat _ ?k ++ _ => generalize n, k, Y end. clear. intros n. induction n as [|n IH]; intros [|k] Y; cbn [repeat app] in Y.
    - injection Y as Y. apply rev_sep in Y; [destruct Y; auto|congruence|discriminate].
    - discriminate Y.
    - discriminate Y.
    - injection Y as Y. eapply IH, Y.
  Qed.
  Lemma pev_inj pf pf' g tr tr' r r' Z Z' C C' t : pe_verify_plain H pf g tr r Z C = Ok t -> pe_verify_plain H' pf' g tr' r' Z' C' = Ok t -> tr = tr' /\ lp_points pf = lp_points pf'.
  Proof.
    unfold pe_verify_plain. intros X Y. step X. step Y.
    assert (L : forall (F : log E -> K) pf tr r CZ C, pe_verify F pf g tr r CZ C = Ok t -> length (snd (compute_factored_evals r)) = dgn g).
    { clear. intros F pf tr r CZ C X. unfold pe_verify in X. destruct (compute_factored_evals r) as [L R]. cbn [snd]. run X. unfold lp_verify in X. destruct (Nat.eqb _ _) eqn:B; [|discriminate X]. apply Nat.eqb_eq in B. auto. }
    destruct (pe_inj H H' _ _ _ _ _ _ _ _ _ _ _ _ _ (eq_trans (L _ _ _ _ _ _ X) (eq_sym (L _ _ _ _ _ _ Y))) X Y) as (-> & _ & Q). auto.
  Qed.
  Lemma resize_inj (a b : list K) : length a = length b -> resize_pow2 a = resize_pow2 b -> a = b.
  Proof. unfold resize_pow2. intros L X. apply app_inj_len in X; [tauto|exact L]. Qed.
  Lemma hl_inj pf pf' rm rm' ro ro' cr cr' cc cc' cd cd' comm comm' g de de' rx rx' ry ry' a b a' b' tr tr' t : length cd = length cd' ->
    hl_verify H pf rm ro cr cc cd comm g de rx ry a b tr = Ok t -> hl_verify H' pf' rm' ro' cr' cc' cd' comm' g de' rx' ry' a' b' tr' = Ok t ->
    hl_messages pf = hl_messages pf' /\ same_up_to_zeros (hl_ops pf) (hl_ops pf') /\ tr = tr'.
  Proof.
    intros Lc X Y. unfold hl_verify, de_verify in X, Y.
    destruct (hp_der pf) as [er ec] eqn:D1. destruct (hp_der pf') as [er' ec'] eqn:D2. destruct (hp_row pf) as [[ra rt] rau] eqn:R1. destruct (hp_row pf') as [[ra' rt'] rau'] eqn:R2.
    destruct (hp_col pf) as [[ca ct] cau] eqn:C1. destruct (hp_col pf') as [[ca' ct'] cau'] eqn:C2.
    step X. step Y. nats. injection X as <-. injection Y as ->. subst.
    repeat match goal with N : bind _ _ = Ok _ |- _ => step N end. subst.
    match goal with N : pe_verify_plain H (hp_mem _) _ _ _ _ _ = _, N' : pe_verify_plain H' (hp_mem _) _ _ _ _ _ = _ |- _ => destruct (pev_inj _ _ _ _ _ _ _ _ _ _ _ _ N N') as [-> Q1]; clear N N' end.
    match goal with N : n_to_one H "claim_evals_mem" _ _ _ _ _ = _, N' : n_to_one H' "claim_evals_mem" _ _ _ _ _ = _ |- _ => destruct (n_to_one_inj _ _ _ _ _ _ _ _ _ _ _ _ _ _ N N') as [Q2 ->]; clear N N' end.
    match goal with N : pe_verify_plain H (hp_ops _) _ _ _ _ _ = _, N' : pe_verify_plain H' (hp_ops _) _ _ _ _ _ = _ |- _ => destruct (pev_inj _ _ _ _ _ _ _ _ _ _ _ _ N N') as [-> Q3]; clear N N' end.
    match goal with N : n_to_one H "claim_evals_ops" _ _ _ _ _ = _, N' : n_to_one H' "claim_evals_ops" _ _ _ _ _ = _ |- _ => destruct (n_to_one_inj _ _ _ _ _ _ _ _ _ _ _ _ _ _ N N') as [Q4 ->]; clear N N' end.
    match goal with N : pe_verify_plain H (hp_dpf _) _ _ _ _ _ = _, N' : pe_verify_plain H' (hp_dpf _) _ _ _ _ _ = _ |- _ => destruct (pev_inj _ _ _ _ _ _ _ _ _ _ _ _ N N') as [-> Q5]; clear N N' end.
    match goal with N : n_to_one H "evals_ops_val" _ _ _ _ _ = _, N' : n_to_one H' "evals_ops_val" _ _ _ _ _ = _ |- _ => destruct (n_to_one_inj _ _ _ _ _ _ _ _ _ _ _ _ _ _ N N') as [Q6 T]; clear N N' end.
    unfold proto in T. injection T as ->. apply resize_inj in Q6; [|rewrite !app_length; lia]. apply app_inj_len in Q6; [|lia]. destruct Q6 as [-> ->]. injection Q2 as -> ->.
    unfold hl_messages, hl_ops. rewrite D1, D2, R1, R2, C1, C2. cbn [fst snd]. split; [congruence|]. split; [|reflexivity]. unfold resize_pow2 in Q4. eexists _, _. exact Q4.
  Qed.
  Lemma dotp_check_log ls : forall n rs ev (tr : log E) cs t, dotp_check n ls rs ev tr = Ok (cs, t) -> length ls = n ->
    (n <= length rs)%nat /\ length cs = (2 * n)%nat /\ t = rev (flat_map (fun '(a, b) => [MScalar "claim_eval_dotp_left" a; MScalar "claim_eval_dotp_right" b]) (combine ls rs)) ++ tr.
  Proof.
    induction ls as [|l ls IH]; intros n rs ev tr cs t X <-; cbn [dotp_check length] in X.
    { injection X as <- <-. cbn. repeat split; lia. }
    step X. repeat match goal with N : idx _ 0 = Ok _ |- _ => apply idx_app_hd in N; destruct N as [? N] end. subst. injection R as <- ->. injection X as <- <-.
    cbn [tl] in *. match goal with N : dotp_check _ _ _ _ _ = Ok _ |- _ => apply IH in N; [|reflexivity]; destruct N as (P1 & P2 & P3) end. cbn [length combine flat_map rev app]. unfold app_scalar in P3. rewrite P3, P2. rewrite <- !app_assoc. repeat split; try lia.
  Qed.
  Lemma app_evals_inj side e e' (tr tr' : log E) : app_evals side e tr = app_evals side e' tr' -> e = e' /\ tr = tr'.
  Proof.
    destruct e as [[[i r] w] a], e' as [[[i' r'] w'] a']. unfold app_evals, app_scalar. intro X. injection X as -> X. apply rev_sep in X; [|congruence|discriminate]. destruct X as [-> X].
    unfold app_scalars in X. injection X as X. apply rev_sep in X; [|congruence|discriminate]. destruct X as [-> X]. injection X as -> ->. auto.
  Qed.
  Lemma ly_inj pf pf' no nc ev ev' tr tr' cm rm co cd ro cm' rm' co' cd' ro' t : length ev = length ev' -> ev <> [] -> cd <> [] ->
    ly_verify H pf no nc ev tr = Ok (cm, rm, co, cd, ro, t) -> ly_verify H' pf' no nc ev' tr' = Ok (cm', rm', co', cd', ro', t) -> ly_messages pf = ly_messages pf' /\ tr = tr'.
  Proof.
    intros Le N0 Ncd X Y. unfold ly_verify in X, Y.
    destruct (lyp_row pf) as [[[ri rr] rw] rau] eqn:R1. destruct (lyp_row pf') as [[[ri' rr'] rw'] rau'] eqn:R2.
    destruct (lyp_col pf) as [[[ci cr] cw] cau] eqn:C1. destruct (lyp_col pf') as [[[ci' cr'] cw'] cau'] eqn:C2.
    destruct (lyp_val pf) as [dl dr] eqn:V1. destruct (lyp_val pf') as [dl' dr'] eqn:V2.
    step X. step Y. nats. subst. injection X as <- <- <- <- <- <-. injection Y as _ _ _ _ _ ->.
    destruct ev as [|e0 ev0] eqn:Eev; [congruence|]. rewrite <- Eev in *. assert (Lev : length ev = S (length ev0)) by (rewrite Eev; reflexivity). clear Eev.
    repeat match goal with N : dotp_check _ _ _ _ _ = Ok _ |- _ => apply dotp_check_log in N; [|congruence]; destruct N as (? & ? & ->) end.
    match goal with N : pcb_verify H (lyp_mem _) _ _ _ _ = _, N' : pcb_verify H' (lyp_mem _) _ _ _ _ = _ |- _ => destruct (fun L1 L2 L3 => pcb_inj _ _ 3 _ _ _ _ _ _ _ _ _ _ L1 L2 L3 N N') as (Q1 & -> & _); [reflexivity..|]; clear N N' end.
    match goal with N : pcb_verify H (lyp_ops _) _ _ _ _ = _, N' : pcb_verify H' (lyp_ops _) _ _ _ _ = _ |- _ =>
      destruct (fun L1 L2 L3 => pcb_inj _ _ (4 * length ev0 + 3) _ _ _ _ _ _ _ _ _ _ L1 L2 L3 N N') as (_ & T & Q2); [rewrite !app_length; lia|rewrite !app_length; lia|congruence|]; clear N N' end.
    specialize (Q2 Ncd). apply pairs_inj in T; [|congruence|congruence|rewrite !combine_length; lia]. destruct T as [T1 T2].
    apply app_evals_inj in T2. destruct T2 as [T2 T3]. apply app_evals_inj in T3. destruct T3 as [T3 T4]. unfold proto in T4. injection T4 as ->.
    rewrite (combine_fst dl), (combine_fst dl') in T1 by lia. apply combine_inj in T1; [|rewrite firstn_length; lia..]. destruct T1 as [T1 T5].
    split; [|reflexivity]. unfold ly_messages. rewrite R1, R2, C1, C2, V1, V2. cbn [fst snd]. congruence.
  Qed.
  Lemma spar_inj pf pf' comm comm' rx rx' ry ry' ev ev' g tr tr' t : length ev = length ev' -> ev <> [] -> sc_nops comm = sc_nops comm' -> sc_cells comm = sc_cells comm' ->
    spar_verify H pf comm rx ry ev g tr = Ok t -> spar_verify H' pf' comm' rx' ry' ev' g tr' = Ok t ->
    sp_messages pf = sp_messages pf' /\ same_up_to_zeros (hl_ops (np_hash (sp_net pf))) (hl_ops (np_hash (sp_net pf'))) /\ tr = tr'.
  Proof.
    intros Le N0 E1 E2 X Y. unfold spar_verify, net_verify, challenge in X, Y. destruct (equalize rx ry) as [ex ey]. destruct (equalize rx' ry') as [ex' ey'].
    step X. step Y. nats. subst.
    match goal with N : hl_verify H _ _ _ _ _ ?c _ _ _ _ _ _ _ _ = _, N' : hl_verify H' _ _ _ _ _ ?c' _ _ _ _ _ _ _ _ = _ |- _ =>
      destruct (fun L => hl_inj _ _ _ _ _ _ _ _ _ _ c c' _ _ _ _ _ _ _ _ _ _ _ _ _ _ _ _ L N N') as (Q1 & Q2 & ->); [lia|]; clear N N' end.
    rewrite E1, E2 in *. repeat match goal with N : pow2 _ = sc_cells _ |- _ => rewrite N in * end.
    match goal with N : ly_verify H _ _ _ _ _ = _, N' : ly_verify H' _ _ _ _ _ = _ |- _ => destruct (fun L M => ly_inj _ _ _ _ _ _ _ _ _ _ _ _ _ _ _ _ _ _ _ L N0 M N N') as (Q3 & T) end.
    { exact Le. } { intros ->. destruct ev; [congruence|]. cbn [length] in *. lia. }
    unfold proto in T. injection T as T. apply rev_sep in T; [|congruence|discriminate]. destruct T as [T1 T2]. injection T2 as ->.
    unfold sp_messages. split; [congruence|]. auto.
  Qed.
  Lemma snark_inj (pf pf' : @snark K G E) (comm comm' : @rcomm K G E) input input' tr tr' (g : @snarkgens K G) t :
    cm_cons comm = cm_cons comm' -> cm_vars comm = cm_vars comm' -> sc_nops (cm_comm comm) = sc_nops (cm_comm comm') -> sc_cells (cm_comm comm) = sc_cells (cm_comm comm') ->
    snark_verify H pf comm input tr g = Ok t -> snark_verify H' pf' comm' input' tr' g = Ok t ->
    tr = tr' /\ comm = comm' /\ input = input' /\ snark_messages pf = snark_messages pf' /\
    same_up_to_zeros (hl_ops (np_hash (sp_net (sn_evalproof pf)))) (hl_ops (np_hash (sp_net (sn_evalproof pf')))).
  Proof.
    intros E1 E2 E3 E4 X Y. unfold snark_verify in X, Y. destruct (sn_evals pf) as [[eA eB] eC] eqn:V1. destruct (sn_evals pf') as [[eA' eB'] eC'] eqn:V2. step X. step Y. nats. subst.
    rewrite <- E1, <- E2 in *.
    match goal with N : spar_verify H _ _ _ _ _ _ _ = _, N' : spar_verify H' _ _ _ _ _ _ _ = _ |- _ => destruct (fun L M => spar_inj _ _ _ _ _ _ _ _ _ _ _ _ _ _ L M E3 E4 N N') as (Q1 & Q2 & T); [reflexivity|discriminate|]; clear N N' end.
    unfold app_scalar in T. injection T as -> -> -> ->.
    match goal with N : r1cs_verify H _ _ _ _ _ _ _ = _, N' : r1cs_verify H' _ _ _ _ _ _ _ = _ |- _ => destruct (r1cs_inj _ _ _ _ _ _ _ _ _ _ _ _ _ _ _ _ _ _ _ [] [] [] [] N N') as (T & -> & P) end.
    unfold app_rcomm, app_scomm in T. apply comm_inj in T. destruct T as [T1 T]. apply comm_inj in T. destruct T as [T2 T]. unfold proto in T. injection T as T3 T4 T5 T6 T7 T8 T.
    split; [exact T|]. split; [destruct comm as [a b c [u v w x y]], comm' as [a' b' c' [u' v' w' x' y']]; cbn in *; congruence|]. split; [reflexivity|].
    split; [|exact Q2]. unfold snark_messages. rewrite V1, V2. congruence.
  Qed.
End Bind.

Section Ext.
  Context {K : Fld} {G : Mod K} {E : Enc G}.
  Variable H : log E -> K.
  Local Open Scope fld_scope.
  Ltac step X := repeat match type of X with
      | bind ?c _ = _ => let N := fresh "R" in destruct c eqn:N; rewrite ?bind_Ok in *; [|discriminate X|discriminate X]
      | (if ?b then _ else _) = _ => destruct b; [|discriminate X]
      | (let '(_, _) := ?p in _) = _ => destruct p eqn:?
      end.
  Lemma ext_app s (t tr : log E) : ext t tr -> ext (s ++ t) tr.
  Proof. intros [q ->]. exists (s ++ q). now rewrite app_assoc. Qed.
  Lemma scr_ext ps : forall e d (tr : log E) ef r t, sc_rounds H ps e d tr = Ok (ef, r, t) -> ext t tr.
  Proof.
    induction ps as [|p ps IH]; intros e d tr ef r t X; cbn [sc_rounds challenge] in X; [injection X as _ _ <-; apply ext_refl|].
    step X. injection X as _ _ <-. match goal with N : sc_rounds _ _ _ _ _ = _ |- _ => apply IH in N; eapply ext_trans; [exact N|] end. unfold app_unipoly. apply ext_cons, ext_cons, ext_app, ext_cons, ext_refl.
  Qed.
  Lemma pbl_ext dotp np dv last pfs : forall i cl rand cd (tr : log E) r t, pb_verify_loop H dotp np dv last pfs i cl rand cd tr = Ok (r, t) -> ext t tr.
  Proof.
    induction pfs as [|p pfs IH]; intros i cl rand cd tr r t X; cbn [pb_verify_loop] in X; [injection X as _ <-; apply ext_refl|].
    unfold challenge in X. step X. apply IH in X. eapply ext_trans; [exact X|]. apply ext_cons.
    match goal with N : sc_verify _ _ _ _ _ _ = _ |- _ => unfold sc_verify in N; step N; apply scr_ext in N; rename N into S1 end.
    match goal with N : challenges _ _ _ _ = _ |- _ => apply ch_log in N; subst end.
    assert (Q : ext (app_claims (by_left p) (by_right p) l1) tr). { rewrite claims_log. apply ext_app. eapply ext_trans; [exact S1|]. apply ext_app, ext_refl. }
    destruct (Nat.eqb _ _); [rewrite dotp_log; apply ext_app|]; exact Q.
  Qed.
  Lemma pcb_ext pf pv dv len (tr : log E) r t : pcb_verify H pf pv dv len tr = Ok (r, t) -> ext t tr.
  Proof. unfold pcb_verify. intro X. step X. apply pbl_ext in X. exact X. Qed.
  Lemma n1_ext l lc lj ev r (tr : log E) rj v t : n_to_one H l lc lj ev r tr = Ok (rj, v, t) -> ext t tr.
  Proof. unfold n_to_one. intro X. step X. injection X as _ _ <-. apply ext_cons. match goal with N : challenges _ _ _ _ = _ |- _ => apply ch_log in N; subst end. apply ext_app, ext_scalars, ext_refl. Qed.
  Lemma pev_ext pf g (tr : log E) r Z C t : pe_verify_plain H pf g tr r Z C = Ok t -> ext t tr.
  Proof. unfold pe_verify_plain. intro X. step X. eapply pe_ext, X. Qed.
  Lemma dotp_check_ext n : forall ls rs ev (tr : log E) cs t, dotp_check n ls rs ev tr = Ok (cs, t) -> ext t tr.
  Proof.
    induction n as [|n IH]; intros ls rs ev tr cs t X; cbn [dotp_check] in X; [injection X as _ <-; apply ext_refl|].
    step X. injection X as _ <-. match goal with N : dotp_check _ _ _ _ _ = _ |- _ => apply IH in N; eapply ext_trans; [exact N|] end. apply ext_cons, ext_cons, ext_refl.
  Qed.
  Lemma spar_ext pf comm rx ry ev g (tr t : log E) : spar_verify H pf comm rx ry ev g tr = Ok t -> ext t tr.
  Proof.
    unfold spar_verify, net_verify, hl_verify, ly_verify, de_verify, challenge. intro X. step X.
    repeat match goal with N : bind _ _ = Ok _ |- _ => step N | N : (let '(_, _) := ?p in _) = Ok _ |- _ => destruct p eqn:? | N : (if ?b then _ else _) = Ok _ |- _ => destruct b; [|discriminate N] end.
    repeat match goal with N : Ok _ = Ok _ |- _ => injection N as ? ; subst | N : (_, _) = (_, _) |- _ => injection N as ?; subst end.
    match goal with
    | D : dotp_check _ _ _ _ _ = Ok _, A : pcb_verify H (lyp_ops _) _ _ _ _ = _, B : pcb_verify H (lyp_mem _) _ _ _ _ = _, N1 : n_to_one H "evals_ops_val" _ _ _ _ _ = _, P1 : pe_verify_plain H (hp_dpf _) _ _ _ _ _ = _,
      N2 : n_to_one H "claim_evals_ops" _ _ _ _ _ = _, P2 : pe_verify_plain H (hp_ops _) _ _ _ _ _ = _, N3 : n_to_one H "claim_evals_mem" _ _ _ _ _ = _, P3 : pe_verify_plain H (hp_mem _) _ _ _ _ _ = _ |- _ =>
      apply dotp_check_ext in D; apply pcb_ext in A; apply pcb_ext in B; apply n1_ext in N1; apply n1_ext in N2; apply n1_ext in N3; apply pev_ext in P1; apply pev_ext in P2; apply pev_ext in P3;
      eapply ext_trans; [exact P3|]; eapply ext_trans; [exact N3|]; eapply ext_trans; [exact P2|]; eapply ext_trans; [exact N2|]; eapply ext_trans; [exact P1|]; eapply ext_trans; [exact N1|]; apply ext_cons, ext_cons;
      eapply ext_trans; [exact B|]; eapply ext_trans; [exact A|]; eapply ext_trans; [exact D|] end.
    unfold app_evals, app_scalar, proto, app_derefs, app_commitment. repeat first [apply ext_refl | apply ext_cons | apply ext_scalars | apply ext_app].
  Qed.
  (** the whole transcript, oldest message first, as far as the commitment goes *)
  Lemma snark_start pf (comm : @rcomm K G E) input (tr : log E) (g : @snarkgens K G) t : snark_verify H pf comm input tr g = Ok t -> exists r,
    rev t = rev tr ++ MText "protocol-name" "Spartan SNARK proof" :: MNat "num_cons" (cm_cons comm) :: MNat "num_vars" (cm_vars comm) :: MNat "num_inputs" (cm_inputs comm) ::
      MNat "batch_size" (sc_batch (cm_comm comm)) :: MNat "num_ops" (sc_nops (cm_comm comm)) :: MNat "num_mem_cells" (sc_cells (cm_comm comm)) :: r.
  Proof.
    intro X. unfold snark_verify in X. destruct (sn_evals pf) as [[eA eB] eC]. step X. apply spar_ext in X. destruct X as [s X].
    match goal with N : r1cs_verify _ _ _ _ _ _ _ _ = _ |- _ => apply r1cs_ext in N; destruct N as [s' N]; rewrite N in X end. rewrite X.
    unfold app_scalar, app_commitment, app_scalars, proto, app_rcomm, app_scomm, app_commitment. eexists.
    repeat (rewrite rev_app_distr; cbn [rev]).
    rewrite <- !app_assoc. cbn [app]. rewrite <- ?app_assoc. cbn [app]. reflexivity.
  Qed.
End Ext.

Section Api.
  Context {K : Fld} {G : Mod K} {E : Enc G}.
  Lemma api_snark_bound (H H' : log E -> K) (pf pf' : @snark K G E) (comm comm' : @rcomm K G E) input input' tr (g : @snarkgens K G) t :
    snark_verify H pf comm input tr g = Ok t -> snark_verify H' pf' comm' input' tr g = Ok t ->
    comm = comm' /\ input = input' /\ snark_messages pf = snark_messages pf' /\
    same_up_to_zeros (hl_ops (np_hash (sp_net (sn_evalproof pf)))) (hl_ops (np_hash (sp_net (sn_evalproof pf')))).
  Proof.
    intros X Y. destruct (snark_start _ _ _ _ _ _ _ X) as [r1 T1]. destruct (snark_start _ _ _ _ _ _ _ Y) as [r2 T2]. rewrite T1 in T2. apply app_inv_head in T2.
    injection T2 as E1 E2 E3 E4 E5 E6 _. destruct (snark_inj H H' _ _ _ _ _ _ _ _ _ _ E1 E2 E5 E6 X Y) as (_ & Q). exact Q.
  Qed.
End Api.
