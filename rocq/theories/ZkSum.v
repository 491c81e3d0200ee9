From Coq Require Import String List Arith Bool Lia Field.
From Verif Require Import Base ListAux Field Vec MathModel PolyModel PolySpec PolyProofs CommitModel SigmaModel CommitSpec CommitProofs SigmaProofs BulletProofs SumModel SumSpec SumProofs SumComplete SumZk EqSpec ZkSpec ZkProofs.
Import ListNotations.

Section S.
  Context {K : Fld} {G : Mod K} {E : Enc G}.
  Add Field Kzs : (fth K).
  Local Open Scope fld_scope.
  Local Notation cmp := (compress E).
  Variables (mk : K -> K * K * K -> res (list K)) (comb : list K -> K) (g1 gN : gens G) (m : nat).

  (** the polynomials the prover commits to, with their values at the challenges *)
  Fixpoint zpolys (n : nat) (claim : K) (ps : list (dense K)) (cs : list K) : list (list K * K) :=
    match n with
    | O => []
    | S n' =>
        match (do v <- round_points comb ps; mk claim v) with
        | Ok p => let r := nth 0 cs 0 in let e := peval p r in
            (p, e) :: match bind_all ps r with Ok ps' => zpolys n' e ps' (skipn 4 cs) | _ => [] end
        | _ => []
        end
    end.
  Fixpoint zshift (cs : list K) (zp : list (list K * K)) (bps bes : list K) (bsc : K) : list K :=
    match zp, bps, bes with
    | (p, _) :: zp', bp :: bps', be :: bes' =>
        let c := nth 3 cs 0 in
        (map (fmul c) p ++ [c * bp; c * (nth 1 cs 0 * bsc + nth 2 cs 0 * be)]) ++ zshift (skipn 4 cs) zp' bps' bes' be
    | _, _, _ => []
    end.
  Fixpoint zk_sim (n : nat) (cs : list K) (claim : G) (bps bes coins : list K) : zkproof E :=
    match n with
    | O => MkZK [] [] []
    | S n' =>
        let P := gmul (nth 0 bps 0) (gh gN) in let e := gmul (nth 0 bes 0) (gh g1) in
        let pf := dp_sim g1 gN (zk_vector m (nth 0 cs 0) (nth 1 cs 0) (nth 2 cs 0)) (cmp P)
          (cmp (gadd (gmul (nth 1 cs 0) claim) (gmul (nth 2 cs 0) e))) (nth 3 cs 0) (firstn (m + 2) coins) in
        let rest := zk_sim n' (skipn 4 cs) e (tl bps) (tl bes) (skipn (m + 2) coins) in
        MkZK (cmp P :: zk_polys rest) (cmp e :: zk_evals rest) (pf :: zk_proofs rest)
    end.
  Definition round_labels (n : nat) : list string := concat (repeat (dp_labels m) n).
  Lemma dp_labels_length n : length (dp_labels n) = (n + 2)%nat.
  Proof. unfold dp_labels. rewrite app_length, repeat_length. reflexivity. Qed.
  Lemma round_labels_length n : length (round_labels n) = (n * (m + 2))%nat.
  Proof. induction n as [|n IH]; [reflexivity|]. unfold round_labels in *. cbn [repeat concat]. rewrite app_length, IH, dp_labels_length. lia. Qed.

  Variables (dl1 dlN : G -> K).
  Hypothesis D1 : forall P, gmul (dl1 P) (gh g1) = P.
  Hypothesis DN : forall P, gmul (dlN P) (gh gN) = P.
  Definition poly_shift (zp : list (list K * K)) : list K := map (fun pe => dlN (lincomb (fst pe) (gG gN))) zp.
  Definition eval_shift (zp : list (list K * K)) : list K := map (fun pe => dl1 (gmul (snd pe) (nth 0 (gG g1) g0))) zp.

  Hypothesis MK : forall e v p, mk e v = Ok p -> length p = m /\ peval p 0 + peval p 1 = e.
  Hypothesis m1 : (1 <= m)%nat.
  Hypothesis H1 : gens_ok g1.
  Hypothesis N1 : gn g1 = 1%nat.
  Hypothesis HN : gens_ok gN.
  Hypothesis NN : gn gN = m.

  Lemma rounds_x H : forall n bps bes claim bsc ps (tr tape : log E) pf r ps' tr' tape', length bps = n -> length bes = n ->
    zk_prove_rounds H mk comb g1 gN n bps bes claim (cmp (ped1 g1 claim bsc)) bsc ps tr tape = Ok (pf, r, ps', tr', tape') ->
    exists cs, length cs = (4 * n)%nat /\ replies H tr' = replies H tr ++ cs /\ tape' = after (round_labels n) tape /\ r = round_point n cs /\
      let zp := zpolys n claim ps cs in length zp = n /\ length (zshift cs zp bps bes bsc) = (n * (m + 2))%nat /\
      pf = zk_sim n cs (ped1 g1 claim bsc) (map2 fadd (poly_shift zp) bps) (map2 fadd (eval_shift zp) bes)
             (map2 fadd (zshift cs zp bps bes bsc) (drawn H (round_labels n) tape)).
  Proof using D1 DN MK m1 H1 N1 HN NN.
    induction n as [|n IH]; intros bps bes claim bsc ps tr tape pf r ps' tr' tape' Lb Le X.
    - cbn [zk_prove_rounds] in X. injection X as <- <- <- <- <-. exists []. rewrite app_nil_r. repeat split.
    - destruct bps as [|bp bps], bes as [|be bes]; try discriminate. injection Lb as Lb. injection Le as Le.
      cbn [zk_prove_rounds] in X. destruct (round_points comb ps) as [v| |] eqn:Ev; try discriminate X. cbn [bind] in X.
      destruct (mk claim v) as [p| |] eqn:Ep; try discriminate X. cbn [bind idx nth_error of_opt] in X.
      destruct (MK _ _ _ Ep) as [Lp S01].
      rewrite (commit_ok p bp gN HN) in X by congruence. cbn [bind] in X. unfold challenge in X.
      set (tr1 := MChal "challenge_nextround" :: _) in X. set (rj := H tr1) in X.
      destruct (bind_all ps rj) as [ps1| |] eqn:Eb; try discriminate X. cbn [bind] in X.
      rewrite uni_evaluate_len in X by lia. cbn [bind] in X. set (eval := peval p rj) in X. rewrite (commit1_ok _ _ g1 H1 N1) in X. cbn [bind] in X.
      set (tr2 := MChal "combine_two_claims_to_one" :: app_point "comm_eval" _ _) in X. set (tr3 := MChal _ :: tr2) in X.
      set (w0 := H tr2) in X. set (w1 := H tr3) in X. rewrite !unpack_comp in X. cbn [bind] in X. rewrite msm2, (ped1_lin g1 _ _ _ _ _ _ H1 N1) in X. cbn [bind] in X.
      rewrite (commit1_ok _ _ g1 H1 N1) in X. cbn [bind] in X. rewrite eeqb_refl in X.
      assert (Dg : degree p = Ok (m - 1)%nat) by (destruct p; cbn in *; [lia|f_equal; lia]). rewrite Dg in X. cbn [bind] in X.
      replace (m - 1 + 1)%nat with (length p) in X by lia.
      assert (T : w0 * claim + w1 * eval = dot p (zk_vector (length p) rj w0 w1)).
      { rewrite zk_vector_dot by lia. rewrite S01. reflexivity. }
      rewrite T in X.
      destruct (dp_prove H g1 gN tr3 tape p bp _ _ _) as [[[[[dpf Cx] Cy] tr4] tape4]| |] eqn:Edp; try discriminate X. cbn [bind tl] in X.
      destruct (zk_prove_rounds H mk comb g1 gN n bps bes eval _ be ps1 tr4 tape4) as [[[[[pf1 r1] ps2] tr5] tape5]| |] eqn:Er; try discriminate X. cbn [bind] in X.
      injection X as <- <- <- <- <-.
      destruct (dp_x H g1 gN _ p bp _ tr3 tape dpf Cx Cy tr4 tape4 H1 N1 HN Edp) as (c & R & Et & -> & -> & Epf).
      destruct (IH _ _ _ _ _ _ _ _ _ _ _ _ Lb Le Er) as (cs & Lcs & R5 & Et5 & Er1 & Lz & Ls & Epf1).
      exists (rj :: w0 :: w1 :: c :: cs). split; [cbn [length]; lia|].
      split. { rewrite R5, R. unfold tr3 at 1, tr2 at 1. cbn [replies app_point]. fold tr2. fold tr3. fold w1. fold w0. unfold tr1 at 1. cbn [replies app_point]. fold tr1. fold rj. rewrite <- !app_assoc. reflexivity. }
      split. { unfold round_labels. cbn [repeat concat]. rewrite after_app. rewrite Et5, Et, Lp. reflexivity. }
      split. { cbn [round_point nth skipn]. rewrite <- Er1. reflexivity. }
      cbn [zpolys nth skipn]. rewrite Ev. cbn [bind]. rewrite Ep, Eb. fold eval. cbn zeta. cbn [length zshift nth skipn].
      split; [cbn zeta in Lz; congruence|]. split.
      { rewrite !app_length, map_length, Lp. cbn [length]. cbn zeta in Ls. rewrite Ls. lia. }
      cbn zeta in Epf1. set (zp := zpolys n eval ps1 cs) in *.
      unfold round_labels. cbn [repeat concat]. fold (round_labels n). rewrite drawn_app. fold (after (dp_labels m) tape).
      set (sh := map (fmul c) p ++ [c * bp; c * (w0 * bsc + w1 * be)]) in *.
      assert (Lsh : length sh = (m + 2)%nat) by (unfold sh; rewrite app_length, map_length, Lp; reflexivity).
      rewrite map2_app by (rewrite drawn_length, dp_labels_length; exact Lsh).
      cbn [zk_sim poly_shift eval_shift map map2 nth skipn tl fst snd].
      set (dw := map2 fadd sh (drawn H (dp_labels m) tape)). assert (Ldw : length dw = (m + 2)%nat) by (unfold dw; rewrite map2_length, Lsh, drawn_length, dp_labels_length; lia).
      rewrite <- Ldw, firstn_app, Nat.sub_diag, firstn_all, skipn_app, Nat.sub_diag, skipn_all. cbn [firstn skipn app]. rewrite app_nil_r.
      destruct (gens_ok1 g1 H1 N1) as [b Hb].
      assert (EP : gmul (dlN (lincomb p (gG gN)) + bp) (gh gN) = ped gN p bp).
      { unfold ped. rewrite <- (DN (lincomb p (gG gN))) at 2. module_red; ring. }
      assert (EE : gmul (dl1 (gmul eval (nth 0 (gG g1) g0)) + be) (gh g1) = ped1 g1 eval be).
      { rewrite (ped1_unfold g1 b _ _ Hb), Hb. cbn [nth]. rewrite <- (D1 (gmul eval b)) at 2. module_red; ring. }
      rewrite EP, EE. rewrite (ped1_lin g1 _ _ _ _ _ _ H1 N1), T.
      subst tape4. rewrite Lp in *. fold dw in Epf. rewrite <- Epf. unfold poly_shift, eval_shift in Epf1. rewrite <- Epf1. reflexivity.
  Qed.

  Lemma zk_prove_x H n claim bsc ps (tr tape : log E) pf r ps' bl tr' tape' :
    zk_prove H mk comb claim bsc n ps g1 gN tr tape = Ok (pf, r, ps', bl, tr', tape') ->
    let bps := drawn H (repeat "blinds_poly"%string n) tape in let t1 := after (repeat "blinds_poly"%string n) tape in
    let bes := drawn H (repeat "blinds_evals"%string n) t1 in let t2 := after (repeat "blinds_evals"%string n) t1 in
    exists cs, length cs = (4 * n)%nat /\ replies H tr' = replies H tr ++ cs /\ tape' = after (round_labels n) t2 /\ r = round_point n cs /\ bl = nth (n - 1) bes 0 /\
      let zp := zpolys n claim ps cs in length zp = n /\ length (zshift cs zp bps bes bsc) = (n * (m + 2))%nat /\
      pf = zk_sim n cs (ped1 g1 claim bsc) (map2 fadd (poly_shift zp) bps) (map2 fadd (eval_shift zp) bes)
             (map2 fadd (zshift cs zp bps bes bsc) (drawn H (round_labels n) t2)).
  Proof using D1 DN MK m1 H1 N1 HN NN.
    intro X. unfold zk_prove, random_vector in X. rewrite !challenges_drawn in X. cbn zeta.
    fold (after (repeat "blinds_poly"%string n) tape) in X. set (bps := drawn H (repeat "blinds_poly"%string n) tape) in *. set (t1 := after (repeat "blinds_poly"%string n) tape) in *.
    fold (after (repeat "blinds_evals"%string n) t1) in X. set (bes := drawn H (repeat "blinds_evals"%string n) t1) in *. set (t2 := after (repeat "blinds_evals"%string n) t1) in *.
    rewrite (commit1_ok _ _ g1 H1 N1) in X. cbn [bind] in X.
    destruct (zk_prove_rounds H mk comb g1 gN n bps bes claim _ bsc ps tr t2) as [[[[[pf1 r1] ps1] tr1] tape1]| |] eqn:Er; try discriminate X. cbn [bind] in X.
    destruct (Nat.leb 1 n); [|discriminate X]. unfold idx in X. destruct (nth_error bes (n - 1)) as [b|] eqn:Eb; [|discriminate X]. cbn [of_opt bind] in X. injection X as <- <- <- <- <- <-.
    destruct (rounds_x H n bps bes claim bsc ps tr t2 pf1 r1 ps1 tr1 tape1) as (cs & A1 & A2 & A3 & A4 & A5); [unfold bps; rewrite drawn_length; apply repeat_length|unfold bes; rewrite drawn_length; apply repeat_length|exact Er|].
    exists cs. split; [exact A1|]. split; [exact A2|]. split; [exact A3|]. split; [exact A4|]. split; [symmetry; apply nth_error_nth, Eb|exact A5].
  Qed.
End S.

Section MK.
  Context {K : Fld}.
  Add Field Kzm : (fth K).
  Local Open Scope fld_scope.
  Lemma quad_mk (e : K) v (p : list K) : (of_nat 2 : K) <> 0 -> quad_poly e v = Ok p -> length p = 3%nat /\ peval p 0 + peval p 1 = e.
  Proof.
    intros T X. destruct v as [[e0 e2] e3]. unfold quad_poly in X. destruct (from_evals_3 K e0 (e - e0) e2 T) as (cs & Ec & L & A & B & _). rewrite Ec in X. injection X as <-.
    split; [exact L|]. rewrite A, B. ring.
  Qed.
  Lemma cubic_mk (e : K) v (p : list K) : (of_nat 2 : K) <> 0 -> (of_nat 3 : K) <> 0 -> cubic_poly e v = Ok p -> length p = 4%nat /\ peval p 0 + peval p 1 = e.
  Proof.
    intros T U X. destruct v as [[e0 e2] e3]. unfold cubic_poly in X. destruct (from_evals_4 K e0 (e - e0) e2 e3 T U) as (cs & Ec & L & A & B & _). rewrite Ec in X. injection X as <-.
    split; [exact L|]. rewrite A, B. ring.
  Qed.
End MK.
