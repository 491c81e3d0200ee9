(** What the final transcript of an accepting verifier determines. *)
From Coq Require Import String List Arith Bool Lia.
From Verif Require Import Base Field Vec MathModel PolyModel PolyProofs R1csModel CommitModel SigmaModel CommitSpec SumModel NizkModel NizkApi BindSpec.
Import ListNotations.

Section Bind.
  Context {K : Fld} {G : Mod K} {E : Enc G}.
  Variables H H' : log E -> K.
  Local Open Scope fld_scope.
  Ltac inj Y := unfold app_point, proto in Y; injection Y; clear Y; intros.
  Lemma rev_sep {A} (f : A -> msg E) (m : msg E) : (forall x y, f x = f y -> x = y) -> (forall x, f x <> m) -> forall xs ys r r',
    rev (map f xs) ++ m :: r = rev (map f ys) ++ m :: r' -> xs = ys /\ r = r'.
  Proof.
    intros A1 A2 xs ys r r' X. rewrite <- !map_rev in X. apply map_sep in X; auto. destruct X as [X ->]. split; [|reflexivity].
    apply (f_equal (@rev A)) in X. now rewrite !rev_involutive in X.
  Qed.
  Lemma scalars_inj l xs ys (t t' : log E) : app_scalars l xs t = app_scalars l ys t' -> xs = ys /\ t = t'.
  Proof. unfold app_scalars. intro X. injection X as X. apply rev_sep in X; [exact X|congruence|discriminate]. Qed.
  Lemma comm_inj l xs ys (t t' : log E) : app_commitment l xs t = app_commitment l ys t' -> xs = ys /\ t = t'.
  Proof. unfold app_commitment. intro X. injection X as X. apply rev_sep in X; [exact X|congruence|discriminate]. Qed.
  Lemma kp_inj pf pf' g g' tr tr' C C' t : kp_verify H pf g tr C = Ok t -> kp_verify H' pf' g' tr' C' = Ok t ->
    tr = tr' /\ C = C' /\ kp_alpha pf = kp_alpha pf'.
  Proof. unfold kp_verify, challenge. intros X Y. run X. run Y. injection X as <-. inj Y. auto. Qed.
  Lemma ep_inj pf pf' g g' tr tr' C D C' D' t : ep_verify H pf g tr C D = Ok t -> ep_verify H' pf' g' tr' C' D' = Ok t ->
    tr = tr' /\ C = C' /\ D = D' /\ ep_alpha pf = ep_alpha pf'.
  Proof. unfold ep_verify, challenge. intros X Y. run X. run Y. injection X as <-. inj Y. auto. Qed.
  Lemma pp_inj pf pf' g g' tr tr' A B C A' B' C' t : pp_verify H pf g tr A B C = Ok t -> pp_verify H' pf' g' tr' A' B' C' = Ok t ->
    tr = tr' /\ (A = A' /\ B = B' /\ C = C') /\ pp_points pf = pp_points pf'.
  Proof. unfold pp_verify, challenge, pp_points. intros X Y. run X. run Y. injection X as <-. inj Y. repeat split; congruence. Qed.
  Lemma dp_inj pf pf' g h g' h' tr tr' a a' A B A' B' t : dp_verify H pf g h tr a A B = Ok t -> dp_verify H' pf' g' h' tr' a' A' B' = Ok t ->
    tr = tr' /\ a = a' /\ (A = A' /\ B = B') /\ dp_points pf = dp_points pf'.
  Proof.
    unfold dp_verify, challenge, dp_points. intros X Y. run X. run Y. injection X as <-. unfold app_point in Y. injection Y. clear Y. intros.
    match goal with N : rev _ ++ _ = rev _ ++ _ |- _ => apply rev_sep in N; [|congruence|discriminate]; destruct N as [-> N]; inj N end. repeat split; congruence.
  Qed.
  Lemma idx_app_hd {A} (l : list A) (x : A) : idx l 0 = Ok x -> exists l', l = x :: l'.
  Proof. unfold idx. destruct l; cbn [nth_error]; intro X; [discriminate X|injection X as ->]. now eexists. Qed.
  Lemma zkr_inj ps : forall ps' es es' pfs pfs' c c' d d' g1 gN g1' gN' tr tr' r r' t, length ps = length ps' ->
    zk_rounds H ps es pfs c d g1 gN tr = Ok (r, t) -> zk_rounds H' ps' es' pfs' c' d' g1' gN' tr' = Ok (r', t) ->
    tr = tr' /\ ps = ps' /\ firstn (length ps) es = firstn (length ps') es' /\
    map dp_points (firstn (length ps) pfs) = map dp_points (firstn (length ps') pfs') /\ (ps <> [] -> c = c').
  Proof.
    induction ps as [|p ps IH]; intros [|p' ps'] es es' pfs pfs' c c' d d' g1 gN g1' gN' tr tr' r r' t Le X Y; try discriminate Le.
    { cbn [zk_rounds] in X, Y. injection X as _ <-. injection Y as _ <-. cbn. repeat split; auto. congruence. }
    cbn [length] in Le. cbn [zk_rounds challenge] in X, Y.
    run X. match type of X with context [dp_verify H ?a ?b ?c0 ?d0 ?e ?f ?h] => destruct (dp_verify H a b c0 d0 e f h) eqn:Ed; try discriminate X end. run X.
    run Y. match type of Y with context [dp_verify H' ?a ?b ?c0 ?d0 ?e ?f ?h] => destruct (dp_verify H' a b c0 d0 e f h) eqn:Ed'; try discriminate Y end. run Y.
    injection X as _ <-. injection Y as _ ->.
    repeat match goal with N : idx _ 0 = Ok _ |- _ => apply idx_app_hd in N; destruct N as [? ->] end. cbn [tl] in *.
    match goal with N : zk_rounds H _ _ _ _ _ _ _ _ = _, N' : zk_rounds H' _ _ _ _ _ _ _ _ = _ |- _ => destruct (IH _ _ _ _ _ _ _ _ _ _ _ _ _ _ _ _ _ _ (f_equal pred Le) N N') as (-> & -> & Ee & Ep & _) end.
    destruct (dp_inj _ _ _ _ _ _ _ _ _ _ _ _ _ _ _ Ed Ed') as (T & _ & [-> _] & Pd). unfold app_point in T. injection T as -> -> ->.
    cbn [length firstn map]. rewrite Pd, Ep, Ee. repeat split; reflexivity.
  Qed.
  Lemma zk_inj pf pf' c c' n d d' g1 gN g1' gN' tr tr' e e' r r' t :
    zk_verify H pf c n d g1 gN tr = Ok (e, r, t) -> zk_verify H' pf' c' n d' g1' gN' tr' = Ok (e', r', t) ->
    tr = tr' /\ zk_points pf = zk_points pf' /\ c = c' /\ e = e'.
  Proof.
    unfold zk_verify, zk_points. intros X Y. run X. run Y. injection X as <- _ <-. injection Y as <- _ ->.
    repeat match goal with N : Nat.eqb _ _ = true |- _ => apply Nat.eqb_eq in N | N : Nat.leb _ _ = true |- _ => apply Nat.leb_le in N end.
    match goal with N : zk_rounds H _ _ _ _ _ _ _ _ = _, N' : zk_rounds H' _ _ _ _ _ _ _ _ = _ |- _ => destruct (fun L => zkr_inj _ _ _ _ _ _ _ _ _ _ _ _ _ _ _ _ _ _ _ L N N') as (-> & Pp & Pe & Pd & Pc) end; [congruence|].
    rewrite Pp in *.
    assert (A1 : firstn (length (zk_polys pf')) (zk_evals pf) = zk_evals pf) by (apply firstn_all2; lia).
    assert (A2 : firstn (length (zk_polys pf')) (zk_evals pf') = zk_evals pf') by (apply firstn_all2; lia).
    assert (Ee : zk_evals pf = zk_evals pf') by (rewrite <- A1, <- A2; exact Pe).
    rewrite Pd. split; [reflexivity|]. split; [congruence|]. split; [apply Pc; intro Z; rewrite Z in *; cbn in *; lia|].
    match goal with N : idx (zk_evals pf) _ = _, N' : idx (zk_evals pf') _ = _ |- _ => rewrite Ee in N; rewrite N in N'; now injection N' end.
  Qed.
  Lemma bc_inj LR : forall LR' tr tr' us us' t, length LR = length LR' -> bullet_challenges H LR tr = (us, t) -> bullet_challenges H' LR' tr' = (us', t) ->
    LR = LR' /\ tr = tr'.
  Proof.
    induction LR as [|[L R] LR IH]; intros [|[L' R'] LR'] tr tr' us us' t Le X Y; try discriminate Le; cbn [bullet_challenges challenge] in X, Y.
    { injection X as _ <-. injection Y as _ <-. auto. }
    destruct (bullet_challenges H LR _) as [u1 t1] eqn:E1. destruct (bullet_challenges H' LR' _) as [u2 t2] eqn:E2. injection X as _ <-. injection Y as _ ->.
    destruct (IH _ _ _ _ _ _ (f_equal pred Le) E1 E2) as [-> T]. unfold app_point in T. injection T as -> -> ->. auto.
  Qed.
  Lemma bc_len LR : forall tr us t, bullet_challenges H LR tr = (us, t) -> length us = length LR.
  Proof.
    induction LR as [|[L R] LR IH]; intros tr us t X; cbn [bullet_challenges challenge] in X; [injection X as <- _; reflexivity|].
    destruct (bullet_challenges H LR _) as [u1 t1] eqn:E1. injection X as <- _. cbn [length]. f_equal. eapply IH, E1.
  Qed.
  Lemma combine_fst {A B} (l : list A) : forall (l' : list B), (length l <= length l')%nat -> combine l l' = combine l (firstn (length l) l').
  Proof. induction l as [|x l IH]; intros [|y l'] Le; cbn in *; try reflexivity; try lia. now rewrite <- IH by lia. Qed.
  Lemma combine_inj {A B} (l : list A) : forall m (l' m' : list B), length l = length l' -> length m = length m' -> combine l l' = combine m m' -> l = m /\ l' = m'.
  Proof.
    induction l as [|x l IH]; intros [|z m] [|y l'] [|w m'] L1 L2 X; cbn in *; try discriminate; auto.
    injection X as -> -> X. apply IH in X; try lia. destruct X as [-> ->]. auto.
  Qed.
End Bind.

Section Bind2.
  Context {K : Fld} {G : Mod K} {E : Enc G}.
  Variables H H' : log E -> K.
  Local Open Scope fld_scope.
  Lemma vs_bc (F : log E -> K) pf n tr r t : verification_scalars F pf n tr = Ok (r, t) ->
    n = pow2 (length (bp_L pf)) /\ (length (bp_L pf) <= length (bp_R pf))%nat /\ exists us, bullet_challenges F (combine (bp_L pf) (bp_R pf)) tr = (us, t).
  Proof.
    unfold verification_scalars. intro X. destruct (Nat.leb 32 _); [discriminate X|]. destruct (Nat.eqb n _) eqn:En; cbn [negb] in X; [|discriminate X].
    destruct (bullet_challenges _ _ _) as [us t'] eqn:Eb. run X. injection X as _ <-. apply Nat.eqb_eq in En.
    match goal with N : Nat.leb _ (length us) = true |- _ => apply Nat.leb_le in N end. rewrite (bc_len _ _ _ _ _ Eb), combine_length in *.
    split; [exact En|]. split; [lia|]. now exists us.
  Qed.
  Lemma lp_inj pf pf' n g g' tr tr' a a' A B A' B' t : lp_verify H pf n g tr a A B = Ok t -> lp_verify H' pf' n g' tr' a' A' B' = Ok t ->
    tr = tr' /\ a = a' /\ (A = A' /\ B = B') /\ lp_points pf = lp_points pf'.
  Proof.
    unfold lp_verify, challenge, lp_points. intros X Y. run X. run Y. injection X as <-. unfold app_point in Y. injection Y. clear Y. intros. subst.
    repeat match goal with N : bullet_verify _ _ _ _ _ _ _ = Ok _ |- _ => unfold bullet_verify in N; run N; injection N as <- <- <- -> end.
    repeat match goal with N : verification_scalars _ _ _ _ = Ok _ |- _ => apply vs_bc in N; destruct N as (? & ? & ? & ?) end.
    assert (Lp : length (bp_L (lp_bullet pf)) = length (bp_L (lp_bullet pf'))).
    { unfold pow2 in *. match goal with N : ?n = (2 ^ _)%nat, N' : ?n = (2 ^ _)%nat |- _ => rewrite N in N'; apply Nat.pow_inj_r in N'; [exact N'|lia] end. }
    match goal with N : bullet_challenges H _ _ = _, N' : bullet_challenges H' _ _ = _ |- _ => destruct (fun L => bc_inj H H' _ _ _ _ _ _ _ L N N') as [Eq T] end; [rewrite !combine_length; lia|].
    rewrite (combine_fst (bp_L (lp_bullet pf))), (combine_fst (bp_L (lp_bullet pf'))) in Eq by assumption.
    apply combine_inj in Eq; [|rewrite firstn_length; lia..]. destruct Eq as [Q1 Q2].
    unfold app_scalars in T. injection T. clear T. intros.
    match goal with N : rev _ ++ _ = rev _ ++ _ |- _ => apply rev_sep in N; [|congruence|discriminate]; destruct N as [-> N]; unfold app_point, proto in N; injection N; clear N; intros end. repeat split; congruence.
  Qed.
  Lemma factored_len (r : list K) L R : compute_factored_evals r = (L, R) -> length R = length (snd (compute_factored_evals r)).
  Proof. intros ->. reflexivity. Qed.
  Lemma pe_inj pf pf' g g' tr tr' r r' CZ CZ' C C' t : length (snd (compute_factored_evals r)) = length (snd (compute_factored_evals r')) ->
    pe_verify H pf g tr r CZ C = Ok t -> pe_verify H' pf' g' tr' r' CZ' C' = Ok t -> tr = tr' /\ CZ = CZ' /\ lp_points pf = lp_points pf'.
  Proof.
    unfold pe_verify. intros Le X Y. destruct (compute_factored_evals r) as [L R]. destruct (compute_factored_evals r') as [L' R']. cbn [snd] in Le.
    run X. run Y. rewrite Le in X. destruct (lp_inj _ _ _ _ _ _ _ _ _ _ _ _ _ _ X Y) as (T & _ & [_ Q] & P). unfold proto in T. injection T as T. auto.
  Qed.
End Bind2.

Section Bind3.
  Context {K : Fld} {G : Mod K} {E : Enc G}.
  Local Open Scope fld_scope.
  Lemma zkr_len (F : log E -> K) ps : forall es pfs c d g1 gN tr r t, zk_rounds F ps es pfs c d g1 gN tr = Ok (r, t) -> length r = length ps.
  Proof.
    induction ps as [|p ps IH]; intros es pfs c d g1 gN tr r t X; cbn [zk_rounds challenge] in X; [injection X as <- _; reflexivity|].
    run X. match type of X with context [dp_verify F ?a ?b ?c0 ?d0 ?e ?f ?h] => destruct (dp_verify F a b c0 d0 e f h) eqn:Ed; try discriminate X end.
    run X. injection X as <- _. cbn [length]. f_equal. eapply IH; eassumption.
  Qed.
  Lemma zk_len (F : log E -> K) pf c n d g1 gN tr e r t : zk_verify F pf c n d g1 gN tr = Ok (e, r, t) -> length r = n.
  Proof.
    unfold zk_verify. intro X. run X. injection X as _ <- _.
    repeat match goal with N : Nat.eqb _ _ = true |- _ => apply Nat.eqb_eq in N end. erewrite zkr_len by eassumption. assumption.
  Qed.
  Lemma fac_len (r r' : list K) : length r = length r' -> length (snd (compute_factored_evals r)) = length (snd (compute_factored_evals r')).
  Proof.
    intro L. unfold compute_factored_evals, compute_factored_lens. rewrite L. cbn [snd]. rewrite !eq_evals_length, !skipn_length. now rewrite L.
  Qed.
  Lemma ch_inj (F F' : log E -> K) l n : forall t t' xs xs' u, challenges F l n t = (xs, u) -> challenges F' l n t' = (xs', u) -> t = t'.
  Proof.
    induction n as [|n IH]; intros t t' xs xs' u X Y; cbn [challenges challenge] in X, Y; [injection X as _ <-; now injection Y|].
    destruct (challenges F _ _ _) eqn:E1. destruct (challenges F' _ _ _) eqn:E2. injection X as _ <-. injection Y as _ ->.
    specialize (IH _ _ _ _ _ E1 E2). now injection IH.
  Qed.
End Bind3.

Section Bind4.
  Context {K : Fld} {G : Mod K} {E : Enc G}.
  Variables H H' : log E -> K.
  Local Open Scope fld_scope.
  Ltac step X := repeat match type of X with
      | bind ?c _ = _ => let N := fresh "R" in destruct c eqn:N; rewrite ?bind_Ok in *; [|discriminate X|discriminate X]
      | (if ?b then _ else _) = _ => destruct b; [|discriminate X]
      | (let '(_, _) := ?p in _) = _ => destruct p eqn:?
      end.
  Lemma r1cs_inj pf pf' nv nc input input' ev ev' tr tr' (g g' : r1csgens G) rx rx' ry ry' t d d' z z' :
    r1cs_verify H pf nv nc input ev tr g = Ok (rx, ry, t) -> r1cs_verify H' pf' nv nc input' ev' tr' g' = Ok (rx', ry', t) ->
    tr = tr' /\ input = input' /\ nizk_points (MkNizk pf d z) = nizk_points (MkNizk pf' d' z').
  Proof.
    unfold r1cs_verify. intros X Y. step X. step Y. injection X as _ _ <-. injection Y as _ _ ->. unfold challenge in *.
    repeat match goal with N : (_, _) = (_, _) |- _ => injection N as <- <- end.
    repeat match goal with N : Ok _ = Ok _ |- _ => injection N as ? end.
    repeat match goal with N : log_2 ?x = _, N' : log_2 ?x = _ |- _ => rewrite N in N'; injection N' as <- end.
    match goal with N : ep_verify H (rp_eq2 _) _ _ _ _ = _, N' : ep_verify H' (rp_eq2 _) _ _ _ _ = _ |- _ => destruct (ep_inj _ _ _ _ _ _ _ _ _ _ _ _ _ N N') as (-> & _ & _ & Q1) end.
    match goal with N : pe_verify H _ _ _ _ _ _ = _, N' : pe_verify H' _ _ _ _ _ _ = _ |- _ => destruct (fun L => pe_inj _ _ _ _ _ _ _ _ _ _ _ _ _ _ _ L N N') as (T & Q2 & Q3) end.
    { apply fac_len. repeat match goal with N : zk_verify _ (rp_sc2 _) _ _ _ _ _ _ = Ok _ |- _ => apply zk_len in N end.
      repeat match goal with |- context [tl ?r] => destruct r; cbn [length tl] in * end; try lia; congruence. }
    subst.
    match goal with N : zk_verify H (rp_sc2 _) _ _ _ _ _ _ = _, N' : zk_verify H' (rp_sc2 _) _ _ _ _ _ _ = _ |- _ => destruct (zk_inj _ _ _ _ _ _ _ _ _ _ _ _ _ _ _ _ _ _ _ _ N N') as (T2 & Q4 & _) end.
    injection T2. clear T2. intros. subst.
    match goal with N : ep_verify H (rp_eq1 _) _ _ _ _ = _, N' : ep_verify H' (rp_eq1 _) _ _ _ _ = _ |- _ => destruct (ep_inj _ _ _ _ _ _ _ _ _ _ _ _ _ N N') as (T3 & _ & _ & Q5) end.
    unfold app_point in T3. injection T3. clear T3. intros. subst.
    match goal with N : pp_verify H _ _ _ _ _ _ = _, N' : pp_verify H' _ _ _ _ _ _ = _ |- _ => destruct (pp_inj _ _ _ _ _ _ _ _ _ _ _ _ _ _ _ N N') as (-> & _ & Q6) end.
    match goal with N : kp_verify H _ _ _ _ = _, N' : kp_verify H' _ _ _ _ = _ |- _ => destruct (kp_inj _ _ _ _ _ _ _ _ _ _ _ N N') as (-> & _ & Q7) end.
    match goal with N : zk_verify H (rp_sc1 _) _ _ _ _ _ _ = _, N' : zk_verify H' (rp_sc1 _) _ _ _ _ _ _ = _ |- _ => destruct (zk_inj _ _ _ _ _ _ _ _ _ _ _ _ _ _ _ _ _ _ _ _ N N') as (-> & Q8 & _) end.
    match goal with N : challenges H _ _ _ = _, N' : challenges H' _ _ _ = _ |- _ => pose proof (ch_inj _ _ _ _ _ _ _ _ _ N N') as T4 end.
    apply comm_inj in T4. destruct T4 as [Q9 T4]. apply scalars_inj in T4. destruct T4 as [-> T4]. unfold proto in T4. injection T4 as ->.
    split; [reflexivity|]. split; [reflexivity|]. unfold nizk_points. cbn [nz_proof].
    repeat match goal with N : rp_claims _ = _ |- _ => rewrite N; clear N end. congruence.
  Qed.
  Lemma nizk_inj pf pf' (I I' : instance K (list nat)) input input' tr tr' (g g' : r1csgens G) t :
    rc_cons (inst I) = rc_cons (inst I') -> rc_vars (inst I) = rc_vars (inst I') ->
    nizk_verify H pf I input tr g = Ok t -> nizk_verify H' pf' I' input' tr' g' = Ok t ->
    tr = tr' /\ idigest I = idigest I' /\ input = input' /\ nizk_points pf = nizk_points pf'.
  Proof.
    intros Ec Ev. unfold nizk_verify. intros X Y. step X. step Y. injection X as <-. injection Y as ->. rewrite Ec, Ev in *.
    match goal with N : r1cs_verify H _ _ _ _ _ _ _ = _, N' : r1cs_verify H' _ _ _ _ _ _ _ = _ |- _ => destruct (r1cs_inj _ _ _ _ _ _ _ _ _ _ _ _ _ _ _ _ _ (nz_rx pf) (nz_rx pf') (nz_ry pf) (nz_ry pf') N N') as (T & -> & P) end.
    unfold proto in T. injection T as T1 T2. destruct pf, pf'. auto.
  Qed.
End Bind4.
