(** Zero knowledge of the proof of satisfiability, stated for the public functions. *)
From Coq Require Import String List Arith Bool Lia Field.
From Verif Require Import Base ListAux Field Vec MathModel PolyModel PolySpec PolyProofs R1csModel R1csSpec R1csProofs R1csMore R1csApi CommitModel SigmaModel CommitSpec CommitProofs SumModel SumSpec NizkModel NizkProofs NizkApi AgmSpec EqSpec SparModel SparSpec SparProofs SparApi SnarkModel SnarkSpec SnarkApi SnarkBind ZkSpec ZkProofs ZkLog ZkSum ZkNizk.
Import ListNotations.

Section A.
  Context {K : Fld} {G : Mod K} {E : Enc G} {bytes : Type} (parse : bytes -> option K) (digest_of : r1cs K -> list nat).
  Local Open Scope fld_scope.
  Hypothesis two : (of_nat 2 : K) <> 0.
  Hypothesis three : (of_nat 3 : K) <> 0.

  Lemma requests_sum a b : length (concat (nizk_requests a b)) = list_sum (map (@length string) (nizk_requests a b)).
  Proof using. induction (nizk_requests a b) as [|l LS IH]; [reflexivity|]. cbn [concat map]. rewrite app_length, IH. reflexivity. Qed.
  Lemma cs_sum a b : list_sum (cs_lens a b) = nizk_coins a b (b - b / 2).
  Proof using. unfold nizk_coins, cs_lens, list_sum. cbn [fold_right]. lia. Qed.
  Lemma r1cs_zk (I : r1cs K) a b (stream : nat -> G) (g : r1csgens G) (input : list K) (dl : gens G -> G -> K) :
    sized I a b -> (1 <= a)%nat -> (b - b / 2 < 32)%nat -> length input = rc_inputs I -> r1csgens_new (2 ^ b) stream = Ok g ->
    (forall gs, In gs [rg1 g; rg3 g; rg4 g] -> forall P, gmul (dl gs P) (gh gs) = P) ->
    let asks := concat (nizk_requests a b) in
    exists sim : list K -> list K -> r1csproof E * list K * list K,
    forall vars cs, length vars = (2 ^ b)%nat ->
    sat (2 ^ a) (triples (sM (rc_A I))) (triples (sM (rc_B I))) (triples (sM (rc_C I))) (vars ++ [1] ++ input) -> length cs = nizk_coins a b (b - b / 2) ->
    exists pad, permutes (length asks) pad /\
    forall H tr tape pf rx ry tr' tape', r1cs_prove H I vars input g tr tape = Ok (pf, rx, ry, tr', tape') ->
      exists cs', length cs' = length cs /\ replies H tr' = replies H tr ++ cs' /\ tape' = after asks tape /\
      (cs' = cs -> (pf, rx, ry) = sim cs (pad (drawn H asks tape))).
  Proof using two three.
    intros Sz Ha Hk Li Hg D asks.
    set (lens := map (@length string) (nizk_requests a b)).
    exists (fun cs l => r1cs_sim a b I g input (cut (cs_lens a b) cs) (cut lens l)).
    intros vars cs Lv Sat Lc.
    set (ss := nz_steps a b I g input (dl (rg1 g)) (dl (rg3 g)) (dl (rg4 g)) vars (cut (cs_lens a b) cs)).
    assert (Ls : map st_n ss = lens) by apply nz_steps_lens.
    assert (Gs : Forall good ss).
    { apply nz_steps_good. destruct (cut_lens (cs_lens a b) cs) as [X _]. { rewrite Lc. symmetry. apply cs_sum. }
      apply (f_equal (fun l => nth 8 l 0%nat)) in X. unfold cs_lens at 2 in X. cbn [nth] in X. change 0%nat with (@length K []) in X. rewrite map_nth in X. exact X. }
    exists (fun l => concat (runs ss [] (cut lens l))). split. { unfold asks. rewrite requests_sum. fold lens. rewrite <- Ls. apply steps_perm, Gs. }
    intros H tr tape pf rx ry tr' tape' X.
    destruct (r1cs_x two three H I a b vars input stream g (dl (rg1 g)) (dl (rg3 g)) (dl (rg4 g)) tr tape pf rx ry tr' tape' Sz Ha Hk Lv Li Hg) as (C0 & L0 & R1 & ET & EQ).
    - apply D. left. reflexivity.
    - apply D. right. left. reflexivity.
    - apply D. right. right. left. reflexivity.
    - exact Sat.
    - exact X.
    - exists (concat C0). split; [rewrite concat_sum, L0, cs_sum; symmetry; exact Lc|]. split; [exact R1|]. split; [exact ET|]. intro R.
      assert (EC : cut (cs_lens a b) cs = C0) by (rewrite <- R, <- L0; apply cut_concat). unfold ss in *. rewrite EC in *. clear ss. set (ss := nz_steps _ _ _ _ _ _ _ _ _ C0) in *.
      assert (ED : cut lens (drawn H asks tape) = drawns H (nizk_requests a b) tape).
      { unfold asks. rewrite <- drawns_concat. unfold lens. rewrite <- (drawns_lens H (nizk_requests a b) tape). apply cut_concat. }
      rewrite ED. destruct (runs_good ss Gs [] (drawns H (nizk_requests a b) tape)) as (L1 & _); [rewrite Ls; apply drawns_lens|].
      rewrite <- Ls, <- L1 at 1. rewrite cut_concat. exact EQ.
  Qed.

  Lemma api_nizk_zk nc nv ni (A B C : list (nat * nat * bytes)) I (stream : nat -> G) (g : r1csgens G) (input : list K) (dl : gens G -> G -> K) :
    (1 <= nc)%nat -> instance_new parse digest_of nc nv ni A B C = Ok I -> nizkgens_new nv ni stream = Ok g ->
    (forall gs, In gs [rg1 g; rg3 g; rg4 g] -> forall P, gmul (dl gs P) (gh gs) = P) ->
    let a := Nat.log2_up (pad_cons nc) in let b := Nat.log2_up (pad_vars nv ni) in let k := (b - b / 2)%nat in
    let asks := concat (nizk_requests a b) in
    (k < 32)%nat ->
    exists sim : list K -> list K -> nizk E,
    forall vars cs, instance_is_sat I vars input = Ok true -> length cs = nizk_coins a b k ->
    exists pad, permutes (length asks) pad /\
    forall H seed tr pf tr', nizk_prove H I vars input g seed tr = Ok (pf, tr') -> replies H tr' = replies H tr ++ cs ->
      pf = sim cs (pad (drawn H asks (tape_new "proof" seed))).
  Proof using two three.
    intros Hn HI Hg D a b k asks Hk. destruct (new_sized _ _ _ _ _ _ _ _ _ _ _ _ HI) as (Sz & Ei & Ev & W & Ec). fold a b in Sz.
    assert (Ha : (1 <= a)%nat).
    { destruct (pad_cons_spec nc) as (_ & _ & X & _). specialize (X Hn). unfold a. change 1%nat with (Nat.log2_up 2). apply Nat.log2_up_le_mono, X. }
    unfold nizkgens_new in Hg. rewrite <- Ev, (sz_vars _ _ _ Sz) in Hg.
    destruct (Nat.eq_dec (length input) (rc_inputs (inst I))) as [Li|Li].
    2:{ exists (fun _ _ => MkNizk (MkRP [] (MkZK [] [] []) (compress E g0, compress E g0, compress E g0, compress E g0) (MkKP (compress E g0) 0 0)
          (MkPP (compress E g0) (compress E g0) (compress E g0) (0, 0, 0, 0, 0)) (MkEP (compress E g0) 0) (MkZK [] [] []) (compress E g0)
          (MkLP (MkBP [] []) (compress E g0) (compress E g0) 0 0) (MkEP (compress E g0) 0)) [] []).
        intros vars cs Hs _. destruct (is_sat_inv I vars input W Hs) as (_ & X & _). contradiction. }
    destruct (r1cs_zk (inst I) a b stream g input dl Sz Ha Hk Li Hg D) as [sim Z].
    exists (fun cs l => let '(pf, rx, ry) := sim cs l in MkNizk pf rx ry).
    intros vars cs Hs Lc. destruct (is_sat_inv I vars input W Hs) as (Lv & _ & Sat). rewrite (sz_cons _ _ _ Sz) in Sat.
    destruct (Z (fit (rc_vars (inst I)) vars) cs) as (pad & P & X); [rewrite fit_length; apply Sz|exact Sat|exact Lc|].
    exists pad. split; [exact P|]. intros H seed tr pf tr' Y R. unfold nizk_prove in Y. rewrite pad_fit in Y by exact Lv. cbn [bind] in Y.
    destruct (r1cs_prove H (inst I) _ input g _ _) as [[[[[pf0 rx] ry] tr1] tape']| |] eqn:Ep; try discriminate Y. cbn [bind] in Y. injection Y as <- <-.
    destruct (X _ _ _ _ _ _ _ _ Ep) as (cs' & _ & R1 & _ & Q). cbn [replies proto] in R1. rewrite R in R1. apply app_inv_head in R1. symmetry in R1. specialize (Q R1). fold asks in Q. destruct (sim cs (pad (drawn H asks (tape_new "proof" seed)))) as [[p x] y]. injection Q as -> -> ->. reflexivity.
  Qed.

  (** two witnesses *)
  Lemma api_nizk_wi nc nv ni (A B C : list (nat * nat * bytes)) I (stream : nat -> G) (g : r1csgens G) (input : list K) (dl : gens G -> G -> K) :
    (1 <= nc)%nat -> instance_new parse digest_of nc nv ni A B C = Ok I -> nizkgens_new nv ni stream = Ok g ->
    (forall gs, In gs [rg1 g; rg3 g; rg4 g] -> forall P, gmul (dl gs P) (gh gs) = P) ->
    let a := Nat.log2_up (pad_cons nc) in let b := Nat.log2_up (pad_vars nv ni) in let k := (b - b / 2)%nat in
    let asks := concat (nizk_requests a b) in
    (k < 32)%nat ->
    forall vars vars' cs, instance_is_sat I vars input = Ok true -> instance_is_sat I vars' input = Ok true -> length cs = nizk_coins a b k ->
    exists swap, permutes (length asks) swap /\
    forall (H H' : log E -> K) seed seed' tr pf tr1 pf' tr1', nizk_prove H I vars input g seed tr = Ok (pf, tr1) -> nizk_prove H' I vars' input g seed' tr = Ok (pf', tr1') ->
      replies H tr1 = replies H tr ++ cs -> replies H' tr1' = replies H' tr ++ cs ->
      drawn H' asks (tape_new "proof" seed') = swap (drawn H asks (tape_new "proof" seed)) -> pf = pf'.
  Proof using two three.
    intros Hn HI Hg D a b k asks Hk vars vars' cs S S' Lc.
    destruct (api_nizk_zk nc nv ni A B C I stream g input dl Hn HI Hg D Hk) as [sim Z].
    destruct (Z vars cs S Lc) as (pad & [ip P] & X). destruct (Z vars' cs S' Lc) as (pad' & [ip' P'] & X').
    fold a b in P, P', X, X'. fold asks in P, P', X, X'.
    exists (fun l => ip' (pad l)). split.
    - exists (fun l => ip (pad' l)). intros l L. destruct (P l L) as (A1 & A2 & A3 & A4). destruct (P' l L) as (B1 & B2 & B3 & B4).
      destruct (P' (pad l) A1) as (C1 & C2 & C3 & C4). destruct (P (pad' l) B1) as (D1 & D2 & D3 & D4). rewrite C4, D4, A3, B3. repeat split; assumption.
    - intros H H' seed seed' tr pf tr1 pf' tr1' E1 E2 R1 R2 Q. rewrite (X _ _ _ _ _ E1 R1), (X' _ _ _ _ _ E2 R2), Q.
      destruct (P (drawn H asks (tape_new "proof" seed))) as (A1 & _); [apply drawn_length|]. destruct (P' _ A1) as (_ & _ & _ & ->). reflexivity.
  Qed.

  (** ** the proof with a computation commitment *)
  Lemma replies_ext (H : log E -> K) (t tr : log E) : ext t tr -> exists m, replies H t = replies H tr ++ m.
  Proof using.
    intros [s ->]. induction s as [|x s [m IH]]; [exists []; symmetry; apply app_nil_r|]. cbn [app].
    destruct x; cbn [replies]; try (exists m; exact IH). rewrite IH, <- app_assoc. eexists. reflexivity.
  Qed.
  Lemma replies_rcomm (H : log E -> K) comm (tr : log E) : replies H (app_rcomm comm tr) = replies H tr.
  Proof using. unfold app_rcomm, app_scomm. rewrite !replies_commitment. reflexivity. Qed.

  Lemma api_snark_zk nc nv ni nz (A B C : list (nat * nat * bytes)) I (s1 s2 : nat -> G) (g : @snarkgens K G) (input : list K) (dl : gens G -> G -> K) :
    let a := Nat.log2_up (pad_cons nc) in let b := Nat.log2_up (pad_vars nv ni) in
    snark_size nc b A B C nz -> instance_new parse digest_of nc nv ni A B C = Ok I -> snarkgens_new nc nv ni nz s1 s2 = Ok g ->
    (forall gs, In gs [rg1 (sn_sat g); rg3 (sn_sat g); rg4 (sn_sat g)] -> forall P, gmul (dl gs P) (gh gs) = P) -> length input = ni ->
    let asks := concat (nizk_requests a b) in
    exists sim : list K -> list K -> r1csproof E * list K * list K,
    forall vars cs, instance_is_sat I vars input = Ok true -> length cs = nizk_coins a b (b - b / 2) ->
    exists pad, permutes (length asks) pad /\
    forall H comm d seed tr pf tr', snark_encode H I g = Ok (comm, d) -> snark_prove H I comm d vars input g seed tr = Ok (pf, tr') ->
      firstn (length cs) (skipn (length (replies H tr)) (replies H tr')) = cs ->
      let '(p, rx, ry) := sim cs (pad (drawn H asks (tape_new "proof" seed))) in
      sn_proof pf = p /\
      exists eA eB eC t tape', r1cs_evaluate (inst I) rx ry = Ok (eA, eB, eC) /\ sn_evals pf = (eA, eB, eC) /\
      r1cs_verify H p (rc_vars (inst I)) (rc_cons (inst I)) input (eA, eB, eC) (app_rcomm comm (proto "Spartan SNARK proof" tr)) (sn_sat g) = Ok (rx, ry, t) /\
      spar_prove H d rx ry [eA; eB; eC] (sn_eval g) (app_scalar "Cr_claim" eC (app_scalar "Br_claim" eB (app_scalar "Ar_claim" eA t)))
        (rev (map MChal asks) ++ tape_new "proof" seed) = Ok (sn_evalproof pf, tr', tape').
  Proof using two three.
    intros a b Z HI Hg D Li asks. pose proof Z as (Hn & _ & Z3 & _).
    destruct (snark_sizes bytes parse digest_of _ _ _ _ _ _ _ _ _ _ _ HI Hg Hn) as (a' & Sz & Ha & Ei & Em & Ea & W & G1 & G2 & SH & ME).
    assert (Eb : Nat.log2_up (next_pow2 (Nat.max nv (ni + 1))) = b) by (unfold b; rewrite pad_vars_eq; reflexivity). rewrite Eb in *.
    assert (Eaa : a' = a). { destruct (new_sized _ _ _ _ _ _ _ _ _ _ _ _ HI) as (Sz' & _). fold a b in Sz'. pose proof (sz_cons _ _ _ Sz) as X. rewrite (sz_cons _ _ _ Sz') in X. apply Nat.pow_inj_r in X; lia. } rewrite Eaa in *. clear Eaa a'.
    assert (Hb : (b - b / 2 < 32)%nat) by (pose proof (Nat.div_mod_eq b 2); pose proof (Nat.mod_upper_bound b 2); lia).
    assert (Li' : length input = rc_inputs (inst I)) by congruence.
    destruct (r1cs_zk (inst I) a b s1 (sn_sat g) input dl Sz Ha Hb Li' G1 D) as [sim Q]. exists sim.
    intros vars cs Hs Lc. destruct (is_sat_inv I vars input W Hs) as (Lv & _ & Sat). rewrite (sz_cons _ _ _ Sz) in Sat.
    set (fv := fit (rc_vars (inst I)) vars) in *. assert (Lf : length fv = (2 ^ b)%nat) by (unfold fv; rewrite fit_length; apply Sz).
    destruct (Q fv cs Lf Sat Lc) as (pad & P & X). exists pad. split; [exact P|].
    intros H comm d seed tr pf tr' Hc Y R. unfold snark_encode, r1cs_commit in Hc.
    destruct (multi_commit H [rc_A (inst I); rc_B (inst I); rc_C (inst I)] (sn_eval g)) as [[comm0 d0]| |] eqn:MC; try discriminate Hc. injection Hc as <- <-.
    unfold snark_prove in Y. rewrite pad_fit in Y by exact Lv. cbn [bind] in Y. fold fv in Y. set (tape := tape_new "proof" seed) in *. set (tr0 := app_rcomm _ _) in *.
    pose proof (r1cs_complete H two three (inst I) a b fv input s1 (sn_sat g) tr0 tape Sz Ha Hb Lf Li' G1 Sat) as V.
    destruct (r1cs_prove H (inst I) fv input (sn_sat g) tr0 tape) as [[[[[pf0 rx] ry] tr1] tape1]| |] eqn:Ep; try discriminate Y. cbn [bind] in Y.
    destruct V as (Lx & Ly & evals & Ee & Vf). destruct (eval_map I a b rx ry Sz Lx Ly) as (eA & eB & eC & Ee' & Em').
    rewrite Ee' in Ee. injection Ee as <-. rewrite Ee' in Y. cbn [bind] in Y. set (tr2 := app_scalar "Cr_claim" eC _) in Y.
    destruct (spar_prove H d0 rx ry [eA; eB; eC] (sn_eval g) tr2 tape1) as [[[ep tr3] tape3]| |] eqn:SP; try discriminate Y. cbn [bind] in Y. injection Y as <- <-. cbn [sn_proof sn_evals sn_evalproof].
    pose proof (api_spar_complete H two three _ _ _ rx ry nz s2 (sn_eval g) comm0 d0 tr2 tape1 (mats_fit bytes nc b A B C I nz a rx ry Z SH ME Ea Lx Ly)) as T.
    rewrite Lx, Ly in T. destruct (T G2 MC) as [T1 _]. clear T. rewrite <- Em' in T1. specialize (T1 _ _ _ SP). apply spar_ext in T1.
    destruct (replies_ext H _ _ T1) as [m Rm].
    destruct (X _ _ _ _ _ _ _ _ Ep) as (cs' & Lc' & R1 & ET & EQ).
    assert (R2 : replies H tr3 = replies H tr ++ cs' ++ m).
    { rewrite Rm. unfold tr2. cbn [replies app_scalar]. rewrite R1. unfold tr0. rewrite replies_rcomm. cbn [replies proto]. rewrite <- app_assoc. reflexivity. }
    rewrite R2, skipn_app, skipn_all, Nat.sub_diag in R. cbn [skipn app] in R. rewrite <- Lc', firstn_app, firstn_all, Nat.sub_diag in R. cbn [firstn] in R. rewrite app_nil_r in R.
    specialize (EQ R). fold asks in EQ, ET. rewrite <- EQ. split; [reflexivity|]. exists eA, eB, eC, tr1, tape3. split; [exact Ee'|]. split; [reflexivity|]. split; [exact Vf|].
    fold tr2. fold (after asks tape). rewrite <- ET. exact SP.
  Qed.
End A.
