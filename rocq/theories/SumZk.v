(** Completeness of the zero-knowledge sum-check provers. *)
From Coq Require Import String List Arith Lia Bool Field Ring.
From Verif Require Import Base ListAux Field Vec MathModel PolyModel PolySpec PolyProofs PolyImp CommitModel SigmaModel CommitSpec CommitProofs SigmaProofs SumModel SumSpec SumProofs SumComplete.
Import ListNotations.

Section Zk.
  Context {K : Fld} {G : Mod K} {E : Enc G}.
  Variable H : log E -> K.
  Local Open Scope fld_scope.
  Add Field Kzk : (fth K).
  Local Notation cmp := (CommitModel.compress E).
  Local Notation lv p := (live (K:=K) p).

  (** the commitments a prover outputs, exactly *)
  Lemma dp_prove_comm (g1 gN : gens G) (tr tape : log E) x bx a y by_ pf Cx Cy tr' tape' :
    gens_ok g1 -> gn g1 = 1%nat -> gens_ok gN ->
    dp_prove H g1 gN tr tape x bx a y by_ = Ok (pf, Cx, Cy, tr', tape') -> Cx = cmp (ped gN x bx) /\ Cy = cmp (ped1 g1 y by_).
  Proof.
    intros H1 N1 HN X. unfold dp_prove in X.
    destruct (Nat.eqb_spec (length x) (length a)) as [La|]; [|discriminate].
    destruct (Nat.eqb_spec (gn gN) (length a)) as [Na|]; [|discriminate].
    rewrite N1 in X. cbn [Nat.eqb] in X. unfold random_vector in X.
    destruct (challenges H "d_vec" (length x) tape) as [dv tp]. unfold random_scalar, challenge in X.
    rewrite (commit_ok x bx gN HN) in X by congruence. cbn [bind] in X. rewrite (commit1_ok _ _ g1 H1 N1) in X. cbn [bind] in X.
    destruct (commit dv _ gN) as [dl| |]; try discriminate. cbn [bind] in X.
    destruct (compute_dotproduct a dv) as [ad| |]; try discriminate. cbn [bind] in X.
    destruct (commit1 ad _ g1) as [bt| |]; try discriminate. cbn [bind] in X.
    injection X as <- <- <- <- <-. split; reflexivity.
  Qed.
  Lemma ep_prove_comm (g : gens G) (tr tape : log E) v1 s1 v2 s2 pf C1 C2 tr' tape' : gens_ok g -> gn g = 1%nat ->
    ep_prove H g tr tape v1 s1 v2 s2 = Ok (pf, C1, C2, tr', tape') -> C1 = cmp (ped1 g v1 s1) /\ C2 = cmp (ped1 g v2 s2).
  Proof.
    intros H1 N1 X. unfold ep_prove, random_scalar, challenge in X. rewrite (commit1_ok _ _ g H1 N1) in X. cbn [bind] in X.
    rewrite (commit1_ok _ _ g H1 N1) in X. cbn [bind] in X. injection X as <- <- <- <- <-. split; reflexivity.
  Qed.

  Lemma powers_length x n : forall cur : K, length (powers x cur n) = n.
  Proof. induction n; intro cur; cbn [powers length]; [reflexivity|]. rewrite IHn. reflexivity. Qed.
  Lemma zk_vector_length n (r w0 w1 : K) : length (zk_vector n r w0 w1) = n.
  Proof. destruct n; [reflexivity|]. unfold zk_vector. rewrite map2_length, powers_length. cbn [length]. rewrite repeat_length. lia. Qed.
  Lemma dot_powers (x : K) p : forall cur, dot p (powers x cur (length p)) = cur * peval p x.
  Proof.
    induction p as [|c p IH]; intro cur; cbn [length powers]; rewrite ?dot_nil_l, ?peval_nil, ?peval_cons; [ring|].
    rewrite dot_cons, IH. ring.
  Qed.
  Lemma dot_ones (p : list K) : dot p (repeat 1 (length p)) = fsum p.
  Proof. induction p as [|c p IH]; cbn [length repeat]; [reflexivity|]. rewrite dot_cons, fsum_cons, IH. ring. Qed.
  Lemma dot_weighted (w0 w1 : K) p : forall a b, length a = length p -> length b = length p ->
    dot p (map2 (fun s e => w0 * s + w1 * e) a b) = w0 * dot p a + w1 * dot p b.
  Proof.
    induction p as [|c p IH]; intros [|x a] [|y b] La Lb; try discriminate; cbn [map2]; rewrite ?dot_nil_l; [ring|].
    rewrite !dot_cons, IH by (cbn in *; congruence). ring.
  Qed.
  Lemma zk_vector_dot p (r w0 w1 : K) : (1 <= length p)%nat ->
    dot p (zk_vector (length p) r w0 w1) = w0 * (peval p 0 + peval p 1) + w1 * peval p r.
  Proof.
    destruct p as [|c p]; cbn [length]; [lia|]. intros _. unfold zk_vector.
    rewrite dot_weighted; [|cbn [length]; rewrite repeat_length; reflexivity|rewrite powers_length; reflexivity].
    change (S (length p)) with (length (c :: p)). rewrite dot_powers, dot_cons, dot_ones, peval_0, peval_1, fsum_cons. ring.
  Qed.

  Lemma ped1_lin (g : gens G) w0 w1 a ra b rb : gens_ok g -> gn g = 1%nat ->
    gadd (gmul w0 (ped1 g a ra)) (gmul w1 (ped1 g b rb)) = ped1 g (w0 * a + w1 * b) (w0 * ra + w1 * rb).
  Proof. intros Hg N. destruct (gens_ok1 g Hg N) as [q Hq]. rewrite !(ped1_unfold g q _ _ Hq). module_red; ring. Qed.
  Lemma msm2 w0 w1 (a b : G) : msm [w0; w1] [a; b] = Ok (gadd (gmul w0 a) (gmul w1 b)).
  Proof. rewrite msm_ok by (cbn; lia). cbn [lincomb]. f_equal. module_red; ring. Qed.

  Definition mk_ok (d : nat) (mk : K -> K * K * K -> res (list K)) : Prop :=
    forall (g : K -> K) e, is_poly d g -> e = g 0 + g 1 ->
      exists p, mk e (g 0, g (of_nat 2), g (of_nat 3)) = Ok p /\ length p = S d /\ forall t, peval p t = g t.

  Lemma zk_rounds_ok mk comb d (g1 gN : gens G) : (1 <= d)%nat -> mk_ok d mk -> gens_ok g1 -> gn g1 = 1%nat -> gens_ok gN -> gn gN = S d ->
    forall n bps bes ps claim bsc (tr tape : log E), fam n ps -> line_deg d (length ps) comb ->
    length bps = n -> length bes = n -> claim = table_sum comb n (map (fun p => lv p) ps) ->
    exists pf r ps' tr' tape',
      zk_prove_rounds H mk comb g1 gN n bps bes claim (cmp (ped1 g1 claim bsc)) bsc ps tr tape = Ok (pf, r, ps', tr', tape') /\
      length r = n /\ length (zk_polys pf) = n /\ length (zk_evals pf) = n /\ fam 0 ps' /\
      Forall2 (fun p p' => nth 0 (lv p') 0 = mle (lv p) r) ps ps' /\
      zk_rounds H (zk_polys pf) (zk_evals pf) (zk_proofs pf) (cmp (ped1 g1 claim bsc)) d g1 gN tr = Ok (r, tr') /\
      forall x, last (cmp (ped1 g1 claim bsc) :: zk_evals pf) x = cmp (ped1 g1 (comb (map (fun p => nth 0 (lv p) 0) ps')) (last (bsc :: bes) 0)).
  Proof.
    intros D1 MK H1 N1 HN NN. induction n as [|n IH]; intros bps bes ps claim bsc tr tape F D Lb Le Ec.
    - destruct bps, bes; try discriminate. exists (MkZK [] [] []), [], ps, tr, tape.
      cbn [zk_prove_rounds zk_rounds zk_polys zk_evals zk_proofs length last]. do 4 (split; [reflexivity|]). split; [exact F|]. split; [|split; [reflexivity|]].
      + clear - ps. induction ps; constructor; [|assumption]. rewrite mle_nil. reflexivity.
      + intros _. do 2 f_equal. rewrite Ec. unfold table_sum. cbn [Nat.pow]. rewrite sumn_S, sumn_nil, map_map. ring.
    - destruct bps as [|bp bps], bes as [|be bes]; try discriminate. cbn [length] in Lb, Le. injection Lb as Lb. injection Le as Le.
      cbn [zk_prove_rounds]. rewrite (round_points_ok comb n ps F). cbn [bind].
      destruct (MK (line comb n ps) claim (line_poly d comb n ps D)) as (p & Ep & Lp & P).
      { rewrite Ec. apply table_sum_line. }
      rewrite Ep. cbn [bind idx nth_error of_opt]. rewrite (commit_ok p bp gN HN) by congruence. cbn [bind]. unfold challenge.
      assert (S01 : peval p 0 + peval p 1 = claim) by (rewrite !P, Ec; symmetry; apply table_sum_line).
      set (tr1 := MChal "challenge_nextround" :: _). set (rj := H tr1).
      destruct (bind_all_ok rj n ps F) as (ps1 & Eb & Rb & F1). rewrite Eb. cbn [bind].
      assert (L1 : length ps1 = length ps) by (symmetry; exact (F2_length _ _ _ Rb)).
      rewrite uni_evaluate_len by lia. cbn [bind]. set (eval := peval p rj). rewrite (commit1_ok _ _ g1 H1 N1). cbn [bind].
      set (tr2 := MChal "combine_two_claims_to_one" :: app_point "comm_eval" _ _). set (tr3 := MChal _ :: tr2).
      set (w0 := H tr2). set (w1 := H tr3). rewrite !unpack_comp. cbn [bind]. rewrite msm2, (ped1_lin g1 _ _ _ _ _ _ H1 N1). cbn [bind].
      rewrite (commit1_ok _ _ g1 H1 N1). cbn [bind]. rewrite eeqb_refl.
      assert (Dg : degree p = Ok d) by (destruct p; [discriminate|]; cbn in *; congruence). rewrite Dg. cbn [bind].
      replace (d + 1)%nat with (length p) by lia.
      assert (T : w0 * claim + w1 * eval = dot p (zk_vector (length p) rj w0 w1)).
      { rewrite zk_vector_dot by lia. rewrite S01. reflexivity. }
      rewrite T.
      destruct (dp_complete H g1 gN tr3 tape p bp (zk_vector (length p) rj w0 w1) (w0 * bsc + w1 * be) H1 N1 HN) as (dpf & Cx & Cy & tr4 & tape4 & Edp & _ & _ & Vdp).
      { congruence. } { apply zk_vector_length. }
      rewrite Edp. cbn [bind].
      destruct (dp_prove_comm _ _ _ _ _ _ _ _ _ _ _ _ _ _ H1 N1 HN Edp) as [-> ->].
      cbn [tl].
      destruct (IH bps bes ps1 eval be tr4 tape4 F1) as (pf & r & ps' & tr' & tape' & Er & Lr & Lpo & Lev & F' & M & V & La).
      { rewrite L1. exact D. } { exact Lb. } { exact Le. } { unfold eval. rewrite P. symmetry. apply table_sum_bound, Rb. }
      rewrite Er. cbn [bind].
      eexists _, (rj :: r), ps', tr', tape'. split; [reflexivity|]. cbn [zk_polys zk_evals zk_proofs].
      do 3 (split; [cbn [length]; congruence|]). split; [exact F'|]. split; [|split].
      + revert M. eapply Forall2_comp; [|exact Rb]. cbn beta. intros a b c Rab Rbc. rewrite Rbc. apply Rab. exact Lr.
      + cbn [zk_rounds idx nth_error of_opt bind tl]. unfold challenge. fold tr1. fold rj. fold eval. fold tr2. fold w0. fold tr3. fold w1.
        rewrite !unpack_comp. cbn [bind]. rewrite msm2, (ped1_lin g1 _ _ _ _ _ _ H1 N1). cbn [bind].
        replace (d + 1)%nat with (length p) by lia. rewrite T. rewrite Vdp, V. reflexivity.
      + intro x. change (last (cmp (ped1 g1 claim bsc) :: cmp (ped1 g1 eval be) :: zk_evals pf) x) with (last (cmp (ped1 g1 eval be) :: zk_evals pf) x).
        rewrite La. do 2 f_equal.
  Qed.

  Lemma nth_last {A} (l : list A) x d : (1 <= length l)%nat -> idx l (length l - 1) = Ok (last (x :: l) d).
  Proof.
    destruct l as [|a l]; cbn [length]; [lia|]. intros _. replace (S (length l) - 1)%nat with (length l) by lia.
    change (last (x :: a :: l) d) with (last (a :: l) d). revert a. induction l as [|b l IH]; intro a; [reflexivity|].
    cbn [length]. change (idx (a :: b :: l) (S (length l))) with (idx (b :: l) (length l)). rewrite IH. reflexivity.
  Qed.

  Lemma zk_prove_ok mk comb d (g1 gN : gens G) : (1 <= d)%nat -> mk_ok d mk -> gens_ok g1 -> gn g1 = 1%nat -> gens_ok gN -> gn gN = S d ->
    forall n ps claim bsc (tr tape : log E), (1 <= n)%nat -> fam n ps -> line_deg d (length ps) comb ->
    claim = table_sum comb n (map (fun p => lv p) ps) ->
    exists pf r ps' bl tr' tape',
      zk_prove H mk comb claim bsc n ps g1 gN tr tape = Ok (pf, r, ps', bl, tr', tape') /\
      length r = n /\ fam 0 ps' /\ Forall2 (fun p p' => nth 0 (lv p') 0 = mle (lv p) r) ps ps' /\
      zk_verify H pf (cmp (ped1 g1 claim bsc)) n d g1 gN tr = Ok (cmp (ped1 g1 (comb (map (fun p => nth 0 (lv p) 0) ps')) bl), r, tr').
  Proof.
    intros D1 MK H1 N1 HN NN n ps claim bsc tr tape Ln F D Ec. unfold zk_prove, random_vector.
    pose proof (challenges_length H "blinds_poly" n tape) as Lb. destruct (challenges H "blinds_poly" n tape) as [bps tape1]. cbn [fst] in Lb.
    pose proof (challenges_length H "blinds_evals" n tape1) as Le. destruct (challenges H "blinds_evals" n tape1) as [bes tape2]. cbn [fst] in Le.
    rewrite (commit1_ok _ _ g1 H1 N1). cbn [bind].
    destruct (zk_rounds_ok mk comb d g1 gN D1 MK H1 N1 HN NN n bps bes ps claim bsc tr tape2 F D Lb Le Ec) as (pf & r & ps' & tr' & tape' & Er & Lr & Lpo & Lev & F' & M & V & La).
    rewrite Er. cbn [bind]. replace (Nat.leb 1 n) with true by (symmetry; apply Nat.leb_le, Ln).
    pose proof (nth_last bes bsc 0) as B. rewrite Le in B. rewrite (B Ln). cbn [bind].
    do 6 eexists. split; [reflexivity|]. split; [exact Lr|]. split; [exact F'|]. split; [exact M|].
    unfold zk_verify. rewrite NN, Lpo, Lev, Nat.eqb_refl, Nat.add_comm, Nat.eqb_refl. cbn [bind]. rewrite V. cbn [bind].
    replace (Nat.leb 1 n) with true by (symmetry; apply Nat.leb_le, Ln).
    pose proof (nth_last (zk_evals pf) (cmp (ped1 g1 claim bsc)) (cmp g0)) as B2. rewrite Lev in B2. rewrite (B2 Ln). cbn [bind]. rewrite La. reflexivity.
  Qed.
End Zk.
