From Coq Require Import String List Arith ZArith Bool Lia.
From Verif Require Import Base ListAux Field Zq Vec MathModel PolyModel PolySpec PolyProofs PolyImp R1csModel R1csSpec R1csProofs R1csApi.
From Verif Require Import CommitModel SigmaModel CommitSpec CommitProofs SigmaProofs LogProofs SumModel SumProofs NizkModel NizkProofs NizkApi BinSpec.
Import ListNotations.

Lemma mapM_length {A B} (f : A -> res B) l : forall m, mapM f l = Ok m -> length m = length l.
Proof.
  induction l as [|a l IH]; intros m X; cbn [mapM] in X; [injection X as <-; reflexivity|].
  destruct (f a); try discriminate. cbn [bind] in X. destruct (mapM f l); try discriminate. cbn [bind] in X. injection X as <-. cbn [length]. f_equal. apply IH. reflexivity.
Qed.
Section S.
  Context {K : Fld} {G : Mod K} {E : Enc G}.
  Variable H : log E -> K.

  Lemma random_length l n tape v t : random_vector H l n tape = (v, t) -> length v = n.
  Proof. intro X. pose proof (challenges_length (E:=E) H l n tape) as L. unfold random_vector in X. rewrite X in L. exact L. Qed.
  Lemma dp_shape g1 gN tr tape x bx a y by' pf C1 C2 tr' tape' : dp_prove H g1 gN tr tape x bx a y by' = Ok (pf, C1, C2, tr', tape') -> length (dp_z pf) = gn gN.
  Proof.
    intro X. unfold dp_prove in X. destruct (random_vector H "d_vec" (length x) tape) as [d t1] eqn:R. apply random_length in R.
    run X. injection X as <- _ _ _ _. cbn [dp_z]. rewrite map2_length, R.
    repeat match goal with B : Nat.eqb _ _ = true |- _ => apply Nat.eqb_eq in B end. lia.
  Qed.
  Lemma zk_shape mk comb g1 gN n : forall bp be claim cc bs ps tr tape pf r ps' tr' tape',
    zk_prove_rounds H mk comb g1 gN n bp be claim cc bs ps tr tape = Ok (pf, r, ps', tr', tape') ->
    length (zk_polys pf) = n /\ length (zk_evals pf) = n /\ length (zk_proofs pf) = n /\ Forall (fun d => length (dp_z d) = gn gN) (zk_proofs pf) /\ length r = n.
  Proof.
    induction n as [|n IH]; intros bp be claim cc bs ps tr tape pf r ps' tr' tape' X; cbn [zk_prove_rounds] in X.
    - injection X as <- <- _ _ _. cbn. auto.
    - run X. injection X as <- <- _ _ _. cbn [zk_polys zk_evals zk_proofs length].
      match goal with Y : zk_prove_rounds _ _ _ _ _ _ _ _ _ _ _ _ _ _ = _ |- _ => apply IH in Y; destruct Y as (? & ? & ? & ? & ?) end.
      match goal with Y : dp_prove _ _ _ _ _ _ _ _ _ _ = _ |- _ => apply dp_shape in Y end.
      repeat split; try congruence. constructor; assumption.
  Qed.
  Lemma zkp_shape mk comb claim bc n ps g1 gN tr tape pf r ps' bl tr' tape' :
    zk_prove H mk comb claim bc n ps g1 gN tr tape = Ok (pf, r, ps', bl, tr', tape') ->
    length (zk_polys pf) = n /\ length (zk_evals pf) = n /\ length (zk_proofs pf) = n /\ Forall (fun d => length (dp_z d) = gn gN) (zk_proofs pf) /\ length r = n.
  Proof.
    intro X. unfold zk_prove in X. run X. injection X as <- <- _ _ _ _.
    match goal with Y : zk_prove_rounds _ _ _ _ _ _ _ _ _ _ _ _ _ _ = _ |- _ => apply zk_shape in Y; exact Y end.
  Qed.
  Lemma loop_shape Q Hg k : forall Gv a b bf bl tr r, bullet_loop H k Q Hg Gv a b bf bl tr = Ok r -> length (br_L r) = k /\ length (br_R r) = k.
  Proof.
    induction k as [|k IH]; intros Gv a b bf bl tr r X; cbn [bullet_loop] in X.
    - run X. injection X as <-. auto.
    - run X. destruct bl as [|[x y] bl]; [discriminate|]. run X. injection X as <-. cbn [br_L br_R length].
      match goal with Y : bullet_loop _ _ _ _ _ _ _ _ _ _ = _ |- _ => apply IH in Y; destruct Y as [-> ->] end. auto.
  Qed.
  Lemma lp_shape g tr tape x bx a y by' pf C1 C2 tr' tape' : lp_prove H g tr tape x bx a y by' = Ok (pf, C1, C2, tr', tape') ->
    length (bp_L (lp_bullet pf)) = Nat.log2_up (length (gG (dgN g))) /\ length (bp_R (lp_bullet pf)) = Nat.log2_up (length (gG (dgN g))).
  Proof.
    intro X. unfold lp_prove in X. run X. injection X as <- _ _ _ _. cbn [lp_bullet].
    match goal with Y : bullet_prove _ _ _ _ _ _ _ _ _ = _ |- _ => unfold bullet_prove in Y; run Y; injection Y as <- _ _ _ _ _ _ end. cbn [bp_L bp_R].
    match goal with Y : bullet_loop _ _ _ _ _ _ _ _ _ _ = _ |- _ => apply loop_shape in Y; destruct Y as [-> ->] end.
    match goal with Y : log_2 (length (gG _)) = Ok _ |- _ => unfold log_2 in Y; destruct (length (gG (dgN g))); [discriminate|]; injection Y as <- end. auto.
  Qed.
  Lemma commit_shape d g tp C bl tp' : poly_commit H d g tp = Ok (C, bl, tp') -> length C = (2 ^ (dnum_vars d / 2))%nat.
  Proof.
    intro X. unfold poly_commit in X. destruct (compute_factored_lens (dnum_vars d)) as [ln rn] eqn:Ef. injection Ef as <- _.
    destruct tp as [t|].
    - destruct (random_vector H "poly_blinds" _ t) as [v t'] eqn:R. apply random_length in R. run X. injection X as <- _ _.
      match goal with Y : commit_inner _ _ _ = _ |- _ => unfold commit_inner in Y; run Y; apply mapM_length in Y; rewrite Y, seq_length, R end. reflexivity.
    - run X. injection X as <- _ _.
      match goal with Y : commit_inner _ _ _ = _ |- _ => unfold commit_inner in Y; run Y; apply mapM_length in Y; rewrite Y, seq_length, repeat_length end. reflexivity.
  Qed.
  Definition bounded (N : nat) (x : zkproof E) : Prop :=
    (length (zk_polys x) <= N /\ length (zk_evals x) <= N /\ length (zk_proofs x) <= N)%nat /\ Forall (fun d => (length (dp_z d) <= 4)%nat) (zk_proofs x).
  Lemma r1cs_shape I (vars input : list K) g tr tape pf rx ry tr' tape' a b stream : r1cs_prove H I vars input g tr tape = Ok (pf, rx, ry, tr', tape') ->
    rc_cons I = (2 ^ a)%nat -> length vars = (2 ^ b)%nat -> r1csgens_new (2 ^ b) stream = Ok g ->
    (length (rp_comm_vars pf) = 2 ^ (b / 2) /\ length (bp_L (lp_bullet (rp_eval pf))) <= b /\ length (bp_R (lp_bullet (rp_eval pf))) <= b /\ length rx = a /\ length ry = S b)%nat /\
    bounded a (rp_sc1 pf) /\ bounded (S b) (rp_sc2 pf).
  Proof.
    intros X Ha Hb Hg. destruct (rgens_facts b stream g Hg) as (_ & _ & _ & _ & N3 & _ & N4 & Epc).
    unfold pcgens_new in Epc. rewrite dgens_new_ok in Epc. cbn [compute_factored_lens snd] in Epc.
    assert (Lg : length (gG (dgN (rgpc g))) = (2 ^ (b - b / 2))%nat) by (injection Epc as <-; cbn [dgN gG]; apply tab_length).
    destruct (dense_new_ok K vars b Hb) as (Ed & _ & _).
    unfold r1cs_prove in X. destruct (Nat.ltb_spec (length input) (length vars)) as [Li|]; [|discriminate].
    assert (Lz : length (full_z vars input) = (2 ^ S b)%nat) by (unfold full_z; rewrite !app_length, repeat_length; cbn [length]; rewrite Nat.pow_succ_r'; lia).
    rewrite Ed in X. cbn [bind] in X. destruct (poly_commit H _ _ _) as [[[cv bl] tp]| |] eqn:Ec; try discriminate. cbn [bind] in X. apply commit_shape in Ec. cbn [dnum_vars] in Ec.
    rewrite Ha, Lz, !log_2_pow in X. destruct (of_opt tp) as [tape1| |]; try discriminate. cbn [bind] in X.
    run X. injection X as <- <- <- _ _. cbn [rp_comm_vars rp_eval rp_sc1 rp_sc2].
    match goal with Y : pe_prove _ _ _ _ _ _ _ _ _ = _ |- _ => unfold pe_prove in Y; run Y; injection Y as <- _ _ _ end.
    match goal with Y : lp_prove _ _ _ _ _ _ _ _ _ = _ |- _ => apply lp_shape in Y; rewrite Lg, Nat.log2_up_pow2 in Y by lia; destruct Y as [-> ->] end.
    match goal with Y : prove_phase_one _ _ _ _ _ _ _ _ _ = _ |- _ => unfold prove_phase_one, prove_cubic_additive in Y; run Y; injection Y as <- <- _ _ _ _ _ end.
    match goal with Y : prove_phase_two _ _ _ _ _ _ _ _ _ = _ |- _ => unfold prove_phase_two, prove_quad in Y; run Y; injection Y as <- <- _ _ _ _ _ end.
    repeat match goal with Y : zk_prove _ _ _ _ _ _ _ _ _ _ _ = _ |- _ => apply zkp_shape in Y; destruct Y as (? & ? & ? & ? & ?) end.
    split; [repeat split; try assumption; lia|]. 
    split; (split; [repeat split; lia|]).
    - refine (Forall_impl _ _ _); [|eassumption]. cbn beta. intros d9 D9. rewrite D9, N4. lia.
    - refine (Forall_impl _ _ _); [|eassumption]. cbn beta. intros d9 D9. rewrite D9, N3. lia.
  Qed.
  Lemma nizk_shape (ii : instance K (list nat)) (vars input : list K) g seed tr pf tr' a b stream : nizk_prove H ii vars input g seed tr = Ok (pf, tr') ->
    rc_cons (inst ii) = (2 ^ a)%nat -> rc_vars (inst ii) = (2 ^ b)%nat -> (length vars <= 2 ^ b)%nat -> r1csgens_new (2 ^ b) stream = Ok g ->
    let y := nz_proof pf in
    (length (rp_comm_vars y) = 2 ^ (b / 2) /\ length (bp_L (lp_bullet (rp_eval y))) <= b /\ length (bp_R (lp_bullet (rp_eval y))) <= b /\ length (nz_rx pf) = a /\ length (nz_ry pf) = S b)%nat /\
    bounded a (rp_sc1 y) /\ bounded (S b) (rp_sc2 y).
  Proof.
    intros X Ha Hb Lv Hg. unfold nizk_prove in X. rewrite pad_fit in X by lia. cbn [bind] in X. run X. injection X as <- _. cbn [nz_proof nz_rx nz_ry].
    match goal with Y : r1cs_prove _ _ _ _ _ _ _ = _ |- _ => refine (r1cs_shape _ _ _ _ _ _ _ _ _ _ _ a b stream Y Ha _ Hg) end. rewrite fit_length. exact Hb.
  Qed.
End S.
