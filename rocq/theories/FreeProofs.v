From Coq Require Import String List Arith Bool Lia Field.
From Verif Require Import Base ListAux Field Vec MathModel PolyModel PolySpec PolyProofs R1csModel R1csSpec R1csProofs R1csMore CommitModel SigmaModel CommitSpec CommitProofs LogProofs.
From Verif Require Import SumModel NizkModel NizkProofs EvalSpec AgmSpec EqSpec EqProofs FreeSpec.
Import ListNotations.

Section FP.
  Context {K : Fld}.
  Add Field Kfp : (fth K).
  Local Open Scope fld_scope.

  Lemma entry_add n : forall i (v w : free K n), entry i (gadd v w) = entry i v + entry i w.
  Proof. induction n as [|n IH]; intros i v w; [cbn; ring|]. destruct i as [|i]; [reflexivity|]. exact (IH i (snd v) (snd w)). Qed.
  Lemma entry_mul n : forall i x (v : free K n), entry i (gmul x v) = x * entry i v.
  Proof. induction n as [|n IH]; intros i x v; [cbn; ring|]. destruct i as [|i]; [reflexivity|]. exact (IH i x (snd v)). Qed.
  Lemma entry_zero n : forall i, entry i (g0 : free K n) = 0.
  Proof. induction n as [|n IH]; intros i; [reflexivity|]. destruct i as [|i]; [reflexivity|]. exact (IH i). Qed.
  Lemma entry_unit n : forall i j, (i < n)%nat -> entry i (unit_vec n j : free K n) = if Nat.eqb i j then 1 else 0.
  Proof.
    induction n as [|n IH]; intros i j L; [lia|]. destruct i as [|i], j as [|j]; cbn [unit_vec entry fst snd Nat.eqb]; try reflexivity.
    - apply entry_zero.
    - apply IH. lia.
  Qed.
  Lemma free_coordinates N : coordinates N (unit_vec N) (fun i (v : free K N) => entry i v).
  Proof. split; [apply entry_add|apply entry_mul|]. intros i j Hi _. now apply entry_unit. Qed.
  Lemma entry_ext n : forall v w : free K n, (forall i, (i < n)%nat -> entry i v = entry i w) -> v = w.
  Proof.
    induction n as [|n IH]; intros v w E; [now destruct v, w|]. destruct v as [x v], w as [y w]. f_equal.
    - exact (E O ltac:(lia)).
    - apply IH. intros i L. exact (E (S i) ltac:(lia)).
  Qed.

  Context {G : Mod K}.
  Variables (E : Enc G) (N : nat) (stream : nat -> G).
  Local Notation phi := (combine_gens N stream).
  Local Notation EF := (known_enc E N stream).
  Local Notation bare := (bare E N stream).

  Lemma lincomb_tab_add n (f g : nat -> K) (s : nat -> G) : lincomb (tab n (fun i => f i + g i)) (tab n s) = gadd (lincomb (tab n f) (tab n s)) (lincomb (tab n g) (tab n s)).
  Proof. unfold tab. induction (seq 0 n) as [|i l IH]; cbn [map lincomb]; [module_red; ring|]. rewrite IH. module_red; ring. Qed.
  Lemma lincomb_tab_mul n (f : nat -> K) x (s : nat -> G) : lincomb (tab n (fun i => x * f i)) (tab n s) = gmul x (lincomb (tab n f) (tab n s)).
  Proof. unfold tab. induction (seq 0 n) as [|i l IH]; cbn [map lincomb]; [module_red; ring|]. rewrite IH. module_red; ring. Qed.
  Lemma phi_add v w : phi (gadd v w) = gadd (phi v) (phi w).
  Proof. unfold combine_gens. rewrite <- lincomb_tab_add. f_equal. apply map_ext. intro i. apply entry_add. Qed.
  Lemma phi_mul x v : phi (gmul x v) = gmul x (phi v).
  Proof. unfold combine_gens. rewrite <- lincomb_tab_mul. f_equal. apply map_ext. intro i. apply entry_mul. Qed.
  Lemma phi_0 : phi g0 = g0.
  Proof. rewrite <- (gmul_0_l (free K N) g0), phi_mul. apply gmul_0_l. Qed.
  Lemma phi_opp v : phi (gopp v) = gopp (phi v).
  Proof. now rewrite !gopp_mul, phi_mul. Qed.
  Lemma phi_minus v w : phi (minus v w) = minus (phi v) (phi w).
  Proof. unfold minus. now rewrite phi_add, phi_opp. Qed.
  Lemma phi_lincomb xs : forall vs, phi (lincomb xs vs) = lincomb xs (map phi vs).
  Proof. induction xs as [|x xs IH]; intros [|v vs]; cbn [lincomb map]; try apply phi_0. now rewrite phi_add, phi_mul, IH. Qed.
  Lemma lincomb_one n (s : nat -> G) j : forall m, (m <= j < m + n)%nat -> lincomb (map (fun i => if Nat.eqb i j then 1 else 0) (seq m n)) (map s (seq m n)) = s j.
  Proof.
    assert (Z : forall n m, (j < m)%nat -> lincomb (map (fun i => if Nat.eqb i j then 1 else 0) (seq m n)) (map s (seq m n)) = g0).
    { clear n. induction n as [|n IH]; intros m L; [reflexivity|]. cbn [seq map lincomb]. rewrite IH by lia. destruct (Nat.eqb_spec m j); [lia|]. module_red; ring. }
    induction n as [|n IH]; intros m L; [lia|]. cbn [seq map lincomb]. destruct (Nat.eqb_spec m j) as [->|Ne].
    - rewrite Z by lia. module_red; ring.
    - rewrite IH by lia. module_red; ring.
  Qed.
  Lemma phi_unit j : (j < N)%nat -> phi (unit_vec N j) = stream j.
  Proof.
    intro L. unfold combine_gens. rewrite <- (lincomb_one N stream j 0 ltac:(lia)). unfold tab. f_equal. apply map_ext_in. intros i Hi. apply in_seq in Hi. apply entry_unit. lia.
  Qed.

  Lemma raw_point (x : EF) : phi (point x) = point (bare x).
  Proof.
    destruct x as [[e v] p]. unfold point, FreeSpec.bare, raw. unfold known_enc. cbn [decompress proj1_sig fst snd]. unfold raw.
    unfold knownb in p. cbn [fst snd] in p. cbn [proj1_sig fst snd]. destruct (CommitModel.decompress E e) as [P|] eqn:D; [|apply phi_0].
    destruct (geqb_spec _ _ P (phi v)); [congruence|discriminate].
  Qed.
  Lemma raw_decodes (x : EF) : decodes x <-> decodes (bare x).
  Proof. unfold decodes, FreeSpec.bare, known_enc. cbn [decompress]. destruct (CommitModel.decompress E (raw x)); split; intro; discriminate || (intro; auto). Qed.

  (** * the generators *)
  Definition gens_over (f : gens (free K N)) (g : gens G) : Prop := map phi (gG f) = gG g /\ phi (gh f) = gh g.
  Lemma map_unit n : (n <= N)%nat -> map phi (tab n (unit_vec N)) = tab n stream.
  Proof. intro L. unfold tab. rewrite map_map. apply map_ext_in. intros i Hi. apply in_seq in Hi. apply phi_unit. lia. Qed.
  Lemma gens_new_over n : (n + 1 <= N)%nat -> gens_over (gens_new n (unit_vec N)) (gens_new n stream).
  Proof. intro L. rewrite !gens_new_G. unfold gens_over. cbn [gG gh]. split; [apply map_unit; lia|apply phi_unit; lia]. Qed.
  Lemma dgens_new_over n d dF : (n + 2 <= N)%nat -> dgens_new n stream = Ok d -> dgens_new n (unit_vec N) = Ok dF ->
    gens_over (dg1 dF) (dg1 d) /\ gens_over (dgN dF) (dgN d).
  Proof.
    intro L. rewrite !dgens_new_ok. intros X Y. injection X as <-. injection Y as <-. unfold gens_over. cbn [dg1 dgN gG gh map].
    rewrite map_unit, !phi_unit by lia. repeat split.
  Qed.
  Lemma r1csgens_over b (g : r1csgens G) gF : (5 <= N)%nat -> (2 ^ (b - b / 2) + 1 < N)%nat -> r1csgens_new (2 ^ b) stream = Ok g -> r1csgens_new (2 ^ b) (unit_vec N) = Ok gF ->
    gens_over (rg1 gF) (rg1 g) /\ gens_over (rg3 gF) (rg3 g) /\ gens_over (rg4 gF) (rg4 g) /\ gens_over (dg1 (rgpc gF)) (dg1 (rgpc g)) /\ gens_over (dgN (rgpc gF)) (dgN (rgpc g)).
  Proof.
    intros N5 NL X Y. unfold r1csgens_new in X, Y. rewrite log_2_pow in X, Y. cbn [bind] in X, Y. unfold pcgens_new, compute_factored_lens, pow2 in X, Y. cbn [snd] in X, Y.
    destruct (dgens_new _ stream) as [d| |] eqn:D; try discriminate X. destruct (dgens_new _ (unit_vec N)) as [dF| |] eqn:DF; try discriminate Y.
    cbn [bind] in X, Y. injection X as <-. injection Y as <-. cbn [rg1 rg3 rg4 rgpc].
    destruct (dgens_new_over (2 ^ (b - b / 2)) d dF ltac:(lia) D DF) as [A B]. split; [exact A|]. split; [apply gens_new_over; lia|]. split; [apply gens_new_over; lia|]. now split.
  Qed.

  (** * the equations *)
  Lemma ped_over f g v r : gens_over f g -> phi (ped f v r) = ped g v r.
  Proof. intros [A B]. unfold ped. now rewrite phi_add, phi_lincomb, phi_mul, A, B. Qed.
  Lemma ped1_over f g x r : gens_over f g -> phi (ped1 f x r) = ped1 g x r.
  Proof. apply ped_over. Qed.
  Lemma kp_over_eqs c (pf : kproof EF) f g C : gens_over f g -> map phi (kp_eqs c pf f C) = kp_eqs c (kp_over bare pf) g (bare C).
  Proof. intro O. unfold kp_eqs. cbn [map kp_over kp_alpha kp_z1 kp_z2]. now rewrite phi_minus, phi_add, phi_mul, !raw_point, (ped1_over f g). Qed.
  Lemma ep_over_eqs c (pf : eproof EF) f g P Q : gens_over f g -> map phi (ep_eqs c pf f P Q) = ep_eqs c (ep_over bare pf) g (phi P) (phi Q).
  Proof. intros [_ O]. unfold ep_eqs. cbn [map ep_over ep_alpha ep_z]. now rewrite phi_minus, phi_add, !phi_mul, phi_minus, raw_point, O. Qed.
  Lemma pp_over_eqs c (pf : pproof EF) f g X Y Z : gens_over f g -> map phi (pp_eqs c pf f X Y Z) = pp_eqs c (pp_over bare pf) g (bare X) (bare Y) (bare Z).
  Proof.
    intros O. unfold pp_eqs. cbn [pp_over pp_z pp_alpha pp_beta pp_delta]. destruct (pp_z pf) as [[[[z1 z2] z3] z4] z5]. cbn [map].
    rewrite !phi_minus, !phi_add, !phi_mul, !raw_point, !(ped1_over f g) by exact O. destruct O as [_ O]. now rewrite O.
  Qed.
  Lemma dp_over_eqs c (pf : dproof EF) f1 g1 fN gN a P Q : gens_over f1 g1 -> gens_over fN gN ->
    map phi (dp_eqs c pf f1 fN a P Q) = dp_eqs c (dp_over bare pf) g1 gN a (phi P) (phi Q).
  Proof.
    intros O1 ON. unfold dp_eqs. cbn [map dp_over dp_delta dp_beta dp_z dp_zdelta dp_zbeta].
    now rewrite !phi_minus, !phi_add, !phi_mul, !raw_point, (ped1_over f1 g1), (ped_over fN gN).
  Qed.
  Lemma zk_over_eqs d f1 g1 fN gN : gens_over f1 g1 -> gens_over fN gN -> forall polys evals (proofs : list (dproof EF)) cs claim,
    map phi (zk_eqs cs polys evals proofs claim d f1 fN) = zk_eqs cs (map bare polys) (map bare evals) (map (dp_over bare) proofs) (phi claim) d g1 gN.
  Proof.
    intros O1 ON. induction polys as [|P polys IH]; intros [|e evals] [|pf proofs] cs claim; cbn [zk_eqs map]; try reflexivity.
    now rewrite map_app, (dp_over_eqs _ _ f1 g1 fN gN), IH, phi_add, !phi_mul, !raw_point.
  Qed.
  Lemma map_point l : map phi (map point l) = map point (map bare (l : list EF)).
  Proof. rewrite !map_map. apply map_ext, raw_point. Qed.
  Lemma lp_over_eqs r us c (pf : lproof EF) f g a P Q : gens_over (dg1 f) (dg1 g) -> gens_over (dgN f) (dgN g) ->
    map phi (lp_eqs r us c pf f a P Q) = lp_eqs r us c (lp_over bare pf) g a (phi P) (phi Q).
  Proof.
    intros [A1 B1] [AN BN]. unfold lp_eqs. cbn [map lp_over lp_bullet bp_L bp_R lp_delta lp_beta lp_z1 lp_z2].
    rewrite !phi_minus, !phi_add, !phi_mul, !phi_add, !phi_mul, !phi_add, !phi_mul, !phi_lincomb, !map_point, !raw_point, AN, B1, <- A1.
    now rewrite <- phi_0, map_nth.
  Qed.
  Lemma last_map {A B} (h : A -> B) l x : last (map h l) (h x) = h (last l x).
  Proof. induction l as [|y [|z l] IH]; [reflexivity|reflexivity|]. exact IH. Qed.
  Lemma nizk_over_eqs a b (I : r1cs K) input gF g (pf : nizk EF) cs :
    gens_over (rg1 gF) (rg1 g) -> gens_over (rg3 gF) (rg3 g) -> gens_over (rg4 gF) (rg4 g) -> gens_over (dg1 (rgpc gF)) (dg1 (rgpc g)) -> gens_over (dgN (rgpc gF)) (dgN (rgpc g)) ->
    map phi (nizk_eqs a b I input gF pf cs) = nizk_eqs a b I input g (nizk_over bare pf) cs.
  Proof.
    intros O1 O3 O4 Op1 OpN. unfold nizk_eqs. destruct pf as [p rx ry]. cbn [nizk_over nz_proof nz_rx nz_ry]. unfold rp_over.
    destruct (rp_claims p) as [[[Az Bz] Cz] Pr]. cbn [rp_claims rp_comm_vars rp_sc1 rp_pok rp_prod rp_eq1 rp_sc2 rp_comm_ry rp_eval rp_eq2].
    destruct (compute_factored_evals (tl ry)) as [L R]. unfold zk_over. cbn [zk_polys zk_evals zk_proofs].
    rewrite !map_app, (zk_over_eqs _ _ (rg1 g) _ (rg4 g)), (zk_over_eqs _ _ (rg1 g) _ (rg3 g)), (kp_over_eqs _ _ _ (rg1 g)), (pp_over_eqs _ _ _ (rg1 g)), !(ep_over_eqs _ _ _ (rg1 g)), (lp_over_eqs _ _ _ _ _ (rgpc g)) by assumption.
    rewrite !phi_lincomb, !phi_mul, !phi_minus, !phi_add, !phi_mul, !raw_point, map_point, phi_0, (ped1_over _ (rg1 g)) by assumption. cbn [map]. rewrite !raw_point, !last_map. reflexivity.
  Qed.

  (** * form *)
  Lemma forall_raw l : Forall decodes (l : list EF) <-> Forall decodes (map bare l).
  Proof.
    rewrite !Forall_forall. split; intros A x Hx.
    - apply in_map_iff in Hx. destruct Hx as (y & <- & Hy). now apply raw_decodes, A.
    - now apply raw_decodes, A, in_map.
  Qed.
  Lemma dp_wf_over n (pf : dproof EF) : dp_wf n pf <-> dp_wf n (dp_over bare pf).
  Proof. unfold dp_wf. cbn [dp_over dp_z dp_delta dp_beta]. now rewrite <- !raw_decodes. Qed.
  Lemma zk_wf_over n d (pf : zkproof EF) : zk_wf n d pf <-> zk_wf n d (zk_over bare pf).
  Proof.
    unfold zk_wf, zk_over. cbn [zk_polys zk_evals zk_proofs]. rewrite !map_length, <- !forall_raw, firstn_map, Forall_map.
    assert (Q : Forall (dp_wf (d + 1)) (firstn n (zk_proofs pf)) <-> Forall (fun x => dp_wf (d + 1) (dp_over bare x)) (firstn n (zk_proofs pf))).
    { rewrite !Forall_forall. split; intros A x Hx; apply dp_wf_over, A, Hx. }
    now rewrite Q.
  Qed.
  Lemma nizk_wf_over a b (I : r1cs K) input (pf : nizk EF) cs : nizk_wf a b I input (nizk_over bare pf) cs -> nizk_wf a b I input pf cs.
  Proof.
    destruct pf as [p rx ry]. unfold nizk_wf. cbn [nizk_over nz_proof nz_rx nz_ry]. unfold rp_over.
    destruct (rp_claims p) as [[[Az Bz] Cz] Pr]. cbn [rp_claims rp_comm_vars rp_sc1 rp_pok rp_prod rp_eq1 rp_sc2 rp_comm_ry rp_eval rp_eq2].
    unfold lp_wf. cbn [lp_over kp_over pp_over ep_over lp_bullet bp_L bp_R lp_delta lp_beta kp_alpha pp_alpha pp_beta pp_delta ep_alpha].
    rewrite !map_length, <- !forall_raw, <- !zk_wf_over, <- !raw_decodes. tauto.
  Qed.
End FP.
