(** The statements of PropsCommit.v, assembled, and their concrete cases. *)
From Coq Require Import String List Arith Bool Lia Field ZArith.
From Verif Require Import Base ListAux Field Zq Vec MathModel PolyModel PolySpec PolyProofs PolyImp CommitModel SigmaModel CommitSpec CommitProofs SigmaProofs BulletProofs LogProofs.
Import ListNotations.

Section A.
  Context {K : Fld} {G : Mod K} {E : Enc G}.
  Add Field Kap : (fth K).
  Local Open Scope fld_scope.

  Lemma api_commit (g : gens G) v b : gens_ok g ->
    commit v b g = if Nat.eqb (length v) (gn g) then Ok (gadd (lincomb v (gG g)) (gmul b (gh g))) else Panic.
  Proof.
    intro Hg. destruct (Nat.eqb_spec (length v) (gn g)) as [L|L]; [now apply commit_ok|].
    unfold commit. destruct (Nat.eqb_spec (gn g) (length v)); [congruence|reflexivity].
  Qed.
  Lemma api_commit1 (g : gens G) x b : gens_ok g -> commit1 x b g = commit [x] b g.
  Proof.
    intro Hg. rewrite api_commit by exact Hg. cbn [length]. destruct (Nat.eqb_spec 1 (gn g)) as [L|L].
    - now apply commit1_ok.
    - unfold commit1. destruct (Nat.eqb_spec (gn g) 1); [congruence|reflexivity].
  Qed.
  Lemma api_commit_hom (g : gens G) v w b c cv cw s : commit v b g = Ok cv -> commit w c g = Ok cw ->
    commit (vadd v w) (b + c) g = Ok (gadd cv cw) /\ commit (map (fmul s) v) (s * b) g = Ok (gmul s cv).
  Proof.
    unfold commit. destruct (Nat.eqb_spec (gn g) (length v)) as [L|]; [|discriminate]. destruct (Nat.eqb_spec (gn g) (length w)) as [L2|]; [|discriminate].
    destruct (msm v (gG g)) as [x| |] eqn:Ev; try discriminate. destruct (msm w (gG g)) as [y| |] eqn:Ew; try discriminate.
    apply msm_inv in Ev, Ew. destruct Ev as [Lv ->]. destruct Ew as [Lw ->]. cbn [bind]. intros X Y. injection X as <-. injection Y as <-.
    assert (La : length (vadd v w) = gn g) by (unfold vadd; rewrite map2_length; lia). rewrite La, map_length, <- L, !Nat.eqb_refl.
    rewrite !msm_ok by (rewrite ?La, ?map_length; lia). cbn [bind]. rewrite lincomb_vadd by congruence. rewrite lincomb_scale. split; f_equal; module_red; ring.
  Qed.
  Lemma span_lincomb (h : G) gs : (forall x, In x gs -> exists k, x = gmul k h) -> forall v, exists k, lincomb v gs = gmul k h.
  Proof.
    induction gs as [|x gs IH]; intros HS [|c v]; cbn [lincomb]; try (exists 0; module_red; ring).
    destruct (HS x (or_introl eq_refl)) as [k ->]. destruct (IH (fun y Hy => HS y (or_intror Hy)) v) as [k2 ->].
    exists (c * k + k2). module_red; ring.
  Qed.
  Lemma api_hiding (g : gens G) v v' b : (forall x, In x (gG g) -> exists k, x = gmul k (gh g)) -> length v = length v' ->
    exists b', commit v' b' g = commit v b g.
  Proof.
    intros HS L. destruct (span_lincomb (gh g) (gG g) HS v) as [k Ek]. destruct (span_lincomb (gh g) (gG g) HS v') as [k' Ek'].
    exists (b + k - k'). unfold commit. rewrite L. destruct (Nat.eqb (gn g) (length v')); [|reflexivity].
    unfold msm. rewrite L. destruct (Nat.leb (length v') (length (gG g))); [|reflexivity]. cbn [bind].
    rewrite !gsum_lincomb, Ek, Ek'. f_equal. module_red; ring.
  Qed.
  Lemma api_binding (g : gens G) v v' b b' c : commit v b g = Ok c -> commit v' b' g = Ok c -> (v, b) <> (v', b') ->
    exists w t, length w = gn g /\ gadd (lincomb w (gG g)) (gmul t (gh g)) = g0 /\ (t <> 0 \/ exists i, nth i w 0 <> 0) /\
      w = map2 fsub v v' /\ t = b - b'.
  Proof.
    intros C1 C2 Ne. apply commit_inv in C1, C2. destruct C1 as [L1 E1]. destruct C2 as [L2 E2]. exists (map2 fsub v v'), (b - b').
    assert (LL : length v = length v') by congruence.
    split; [rewrite map2_length; lia|]. split; [|split; [|split; reflexivity]].
    - rewrite lincomb_sub by exact LL. unfold ped in E1, E2. transitivity (gadd c (gopp c)); [|apply gadd_opp].
      rewrite E1 at 1. rewrite E2. module_red; ring.
    - destruct (feqb_spec K b b') as [->|Nb]; [|left; rewrite (fsub_eq_0 K); exact Nb]. right.
      assert (Nv : v <> v') by (intro X; apply Ne; congruence). clear - LL Nv.
      revert v' LL Nv. induction v as [|x v IH]; intros [|y v'] LL Nv; try discriminate LL; [congruence|].
      destruct (feqb_spec K x y) as [->|Nx].
      + destruct (IH v') as [i Hi]; [now injection LL|congruence|]. exists (S i). exact Hi.
      + exists 0%nat. cbn. rewrite (fsub_eq_0 K). exact Nx.
  Qed.
  Lemma api_gens_overlap (stream : nat -> G) n m : (n < m)%nat ->
    gens_ok (gens_new n stream) /\ gn (gens_new n stream) = n /\
    gG (gens_new n stream) = firstn n (gG (gens_new m stream)) /\
    nth_error (gG (gens_new m stream)) n = Some (gh (gens_new n stream)).
  Proof.
    intro L. rewrite !gens_new_G. unfold gens_ok. cbn [gn gG gh]. rewrite tab_length. repeat split.
    - now rewrite firstn_tab by lia.
    - rewrite (nth_error_nth' (tab m stream) g0) by (rewrite tab_length; exact L). now rewrite nth_tab.
  Qed.
  Lemma api_gens_reopen (stream : nat -> G) n m v b : (n < m)%nat -> length v = n ->
    commit v b (gens_new n stream) = commit (v ++ b :: repeat 0 (m - n - 1)) 0 (gens_new m stream).
  Proof.
    intros L Lv. rewrite !api_commit by (rewrite gens_new_G; apply tab_length). rewrite !gens_new_G. cbn [gn gG gh].
    rewrite app_length. cbn [length]. rewrite repeat_length, Lv. replace (n + S (m - n - 1))%nat with m by lia. rewrite !Nat.eqb_refl. f_equal.
    replace m with (n + S (m - n - 1))%nat at 2 by lia. rewrite (tab_add n (S (m - n - 1)) stream).
    rewrite lincomb_app by (rewrite tab_length; exact Lv). rewrite tab_S. cbn [lincomb]. rewrite lincomb_repeat0, Nat.add_0_r. module_red; ring.
  Qed.
  Lemma api_gens_split (stream : nat -> G) n : exists g, dgens_new n stream = Ok g /\
    gens_ok (dgN g) /\ gn (dgN g) = n /\ gens_ok (dg1 g) /\ gn (dg1 g) = 1%nat /\ gh (dgN g) = gh (dg1 g) /\
    gG (dgN g) ++ gG (dg1 g) ++ [gh (dg1 g)] = tab (n + 2) stream.
  Proof.
    rewrite dgens_new_ok. eexists. split; [reflexivity|]. unfold gens_ok. cbn [dgN dg1 gn gG gh]. rewrite tab_length. repeat split.
    rewrite (tab_add n 2 stream). cbn. now rewrite Nat.add_0_r.
  Qed.
End A.

(** * the universal forged evaluation proof *)
Section Forge.
  Context {K : Fld} {G : Mod K} {E : Enc G}.
  Variable H : log E -> K.
  Add Field Kfo : (fth K).
  Local Open Scope fld_scope.

  Lemma bullet_challenges_nz (LR : list (E * E)) : forall tr, length (fst (bullet_challenges H LR tr)) = length LR /\
    unless H "u" 0 (length LR) (forall u, In u (fst (bullet_challenges H LR tr)) -> u <> 0).
  Proof.
    induction LR as [|[L R] LR IH]; intro tr; [split; [reflexivity|apply unless_triv; intros u []]|]. cbn [bullet_challenges challenge].
    specialize (IH (MChal "u" :: app_point "R" R (app_point "L" L tr))). destruct (bullet_challenges H LR _) as [us tr']. cbn [fst length] in *.
    destruct IH as [IL IN]. split; [congruence|]. apply (unless_step H _ _ _ _ (app_point "R" R (app_point "L" L tr))). intro Nz.
    refine (unless_mono H _ _ _ _ _ _ IN). intros IN' u [<-|Hu]; [exact Nz|now apply IN'].
  Qed.
  Lemma repeat_map_comp k : repeat (compress E g0) k = map (compress E) (repeat g0 k).
  Proof. induction k; cbn; congruence. Qed.
  Lemma lp_forged k (g : dgens G) stream tr a Cx Cy X Y : (k < 32)%nat -> length a = (2 ^ k)%nat ->
    dgens_new (2 ^ k) stream = Ok g -> decompress E Cx = Some X -> decompress E Cy = Some Y ->
    unless H "u" 0 k (exists tr', lp_verify H (forged k) (2 ^ k) g tr a Cx Cy = Ok tr').
  Proof.
    intros L32 La Hg DX DY. rewrite dgens_new_ok in Hg. injection Hg as <-.
    set (n := (2 ^ k)%nat) in *. set (h := stream (n + 1)%nat). set (G1 := stream n). set (gN := MkGens n (tab n stream) h). set (g1 := MkGens 1 [G1] h).
    assert (H1 : gens_ok g1) by reflexivity.
    unfold lp_verify. cbn [dgn dgN dg1]. rewrite La, !Nat.eqb_refl. unfold challenge.
    set (tr1 := app_scalars "a" a _). set (r := H (MChal "r" :: tr1)).
    rewrite (gens_scale_ok g1 r H1). cbn [bind gn gG gh g1 map]. rewrite (unpack_some _ _ DX), (unpack_some _ _ DY). cbn [bind lp_bullet forged].
    unfold bullet_verify.
    set (pf := MkBP (repeat (compress E g0) k) (repeat (compress E g0) (S k))).
    pose proof (bullet_challenges_nz (combine (bp_L pf) (bp_R pf)) (MChal "r" :: tr1)) as [Lu U].
    destruct (bullet_challenges H (combine (bp_L pf) (bp_R pf)) (MChal "r" :: tr1)) as [us tr2] eqn:Ech. cbn [fst] in *.
    assert (LL : length (bp_L pf) = k) by (apply repeat_length).
    assert (Lus : length us = k).
    { rewrite Lu, combine_length. cbn [bp_L bp_R pf]. rewrite !repeat_length. lia. }
    rewrite <- Lu, Lus in U. refine (unless_mono H _ _ _ _ _ _ U). intro Nu.
    pose proof (verification_scalars_ok H pf (MChal "r" :: tr1) us tr2) as V. rewrite LL in V. fold n in V.
    rewrite V by auto. cbn [bind bp_L bp_R pf]. rewrite !repeat_map_comp, !mapM_unpack. cbn [bind].
    cbn [gG gN]. rewrite msm_ok by (rewrite !tab_length; lia). cbn [bind]. unfold inner_product. rewrite tab_length, La, Nat.eqb_refl. cbn [bind].
    rewrite msm_ok by (rewrite !app_length, !map_length, !repeat_length; cbn [length]; lia). cbn [bind lp_delta lp_beta lp_z1 lp_z2].
    unfold forged. cbn [lp_delta lp_beta lp_z1 lp_z2].     rewrite !unpack_comp. cbn [bind]. rewrite idx_0. cbn [bind].
    assert (EG : lincomb (map (fun u => u * u) us ++ map (fun u => finv u * finv u) us ++ [1]) (repeat g0 k ++ repeat g0 (S k) ++ [gadd X (gmul r Y)]) = g0).
    { rewrite lincomb_app by (rewrite map_length, repeat_length; exact Lus). rewrite (lincomb_g0 k).
      replace (repeat g0 (S k) ++ [gadd X (gmul r Y)]) with (repeat (g0 : G) k ++ [g0; gadd X (gmul r Y)]).
      2: { change (S k) with (1 + k)%nat. rewrite Nat.add_comm, repeat_app, <- app_assoc. reflexivity. }
      rewrite lincomb_app by (rewrite map_length, repeat_length; exact Lus). rewrite (lincomb_g0 k). cbn [lincomb]. module_red; ring. }
    rewrite EG. rewrite eeqb_comp_eq; [eexists; reflexivity|]. module_red; ring.
  Qed.
  Lemma mapM_unpack_some (C : list E) : (forall c, In c C -> exists X, decompress E c = Some X) -> exists Cs, mapM (unpack (E:=E)) C = Ok Cs /\ length Cs = length C.
  Proof.
    induction C as [|c C IH]; intro D; [exists []; split; reflexivity|]. destruct (D c (or_introl eq_refl)) as [X DX].
    destruct IH as (Cs & EC & LC); [intros; apply D; now right|]. cbn [mapM]. rewrite (unpack_some _ _ DX). cbn [bind]. rewrite EC. cbn [bind].
    exists (X :: Cs). split; [reflexivity|]. cbn. congruence.
  Qed.
  Lemma api_forged (stream : nat -> G) (r : list K) (g : dgens G) (tr : log E) (C : list E) :
    (length r - length r / 2 < 32)%nat -> pcgens_new (length r) stream = Ok g ->
    (2 ^ (length r / 2) <= length C)%nat -> (forall c, In c C -> exists X, decompress E c = Some X) ->
    (forall CZ Y, decompress E CZ = Some Y -> unless H "u" 0 (length r - length r / 2) (exists tr', pe_verify H (forged (length r - length r / 2)) g tr r CZ C = Ok tr')) /\
    (forall v, unless H "u" 0 (length r - length r / 2) (exists tr', pe_verify_plain H (forged (length r - length r / 2)) g tr r v C = Ok tr')).
  Proof.
    intros L32 Hg LC DC. pose proof Hg as Hg2. unfold pcgens_new, compute_factored_lens, snd, pow2 in Hg2.
    assert (V : forall CZ Y, decompress E CZ = Some Y -> unless H "u" 0 (length r - length r / 2) (exists tr', pe_verify H (forged (length r - length r / 2)) g tr r CZ C = Ok tr')).
    { intros CZ Y DY. unfold pe_verify. pose proof (factored_ok K r) as F. destruct (compute_factored_evals r) as [L R]. destruct F as (HL & HR & _).
      destruct (mapM_unpack_some C DC) as (Cs & -> & LCs). cbn [bind]. rewrite msm_ok by (rewrite HL, LCs; exact LC). cbn [bind]. rewrite HR.
      apply (lp_forged (length r - length r / 2) g stream _ _ _ _ (lincomb L Cs) Y L32 HR Hg2); [apply dec_comp|exact DY]. }
    split; [exact V|]. intro v. unfold pe_verify_plain. rewrite dgens_new_ok in Hg2.
    assert (EC : commit1 v 0 (dg1 g) = Ok (ped1 (dg1 g) v 0)) by (injection Hg2 as <-; apply commit1_ok; reflexivity).
    rewrite EC. cbn [bind]. apply (V _ (ped1 (dg1 g) v 0)), dec_comp.
  Qed.
  (** soundness fails: a commitment to one polynomial, any value *)
  Lemma api_forged_commitment (stream : nat -> G) (Z r : list K) (g : dgens G) d tp C blinds tp' (tr : log E) (v : K) :
    length Z = (2 ^ length r)%nat -> (length r - length r / 2 < 32)%nat ->
    dense_new Z = Ok d -> pcgens_new (length r) stream = Ok g -> poly_commit H d g tp = Ok (C, blinds, tp') ->
    exists pf, unless H "u" 0 (length r - length r / 2) (exists tr', pe_verify_plain H pf g tr r v C = Ok tr').
  Proof.
    intros LZ L32 Hd Hg Hc. destruct (dense_new_ok K Z _ LZ) as (Ed & _ & _). rewrite Ed in Hd. injection Hd as <-.
    destruct (poly_commit_ok H Z (length r) g stream tp LZ Hg) as (bl & tp2 & Lbl & _ & Epc). rewrite Epc in Hc. injection Hc as <- <- <-.
    exists (forged (length r - length r / 2)). apply (api_forged stream r g tr _ L32 Hg).
    - rewrite map_length, map2_length, tab_length. lia.
    - intros c Hc. apply in_map_iff in Hc. destruct Hc as (X & <- & _). exists X. apply dec_comp.
  Qed.
End Forge.

(** * a concrete instance: Fp as a module over itself; [None] is an encoding that does not decode *)
Definition exG : Mod Fp := self_mod Fp.
Definition oeqb (a b : option Fp) : bool := match a, b with Some x, Some y => feqb x y | None, None => true | _, _ => false end.
Lemma oeqb_spec a b : reflect (a = b) (oeqb a b).
Proof. destruct a as [a|], b as [b|]; unfold oeqb; try (constructor; congruence). destruct (feqb_spec Fp a b); constructor; congruence. Qed.
Definition exE : Enc exG := MkEnc Fp exG (option Fp) (fun g => Some g) (fun e => e) (fun g => eq_refl) oeqb oeqb_spec.
(** an oracle that is never zero and depends on its input *)
Definition exH (l : log exE) : Fp := fp (Z.of_nat (1 + length l)).
Definition exStream (i : nat) : exG := fp (Z.of_nat (3 + 2 * i)).
Definition gens1 : gens exG := MkGens (G:=exG) 1 [fp 2] (fp 3).

Lemma is_ok_ex {A} (x : res A) : is_ok x = true -> exists a, x = Ok a.
Proof. destruct x; try discriminate. intros _. now exists a. Qed.

Lemma case22 :
  let pf := MkKP (E:=exE) (Some (fp 5)) (fp 6) (fp 8) in let pf' := MkKP (E:=exE) (Some (fp 5)) (fp 11) (fp 15) in
  exists tr1 tr2, kp_verify (fun _ => fp 1) pf gens1 [] (Some (fp 31) : exE) = Ok tr1 /\ kp_verify (fun _ => fp 2) pf' gens1 [] (Some (fp 31) : exE) = Ok tr2 /\
    (finv (fp 1 - fp 2) * (fp 6 - fp 11) = fp 5)%fld /\ (finv (fp 1 - fp 2) * (fp 8 - fp 15) = fp 7)%fld.
Proof.
  intros pf pf'. assert (A : is_ok (kp_verify (fun _ => fp 1) pf gens1 [] (Some (fp 31) : exE)) = true) by (vm_compute; reflexivity).
  assert (B : is_ok (kp_verify (fun _ => fp 2) pf' gens1 [] (Some (fp 31) : exE)) = true) by (vm_compute; reflexivity).
  apply is_ok_ex in A, B. destruct A as [t1 A]. destruct B as [t2 B]. exists t1, t2. split; [exact A|]. split; [exact B|]. zqs.
Qed.
