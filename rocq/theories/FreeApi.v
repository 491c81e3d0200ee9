From Coq Require Import String List Arith ZArith Bool Lia Field.
From Verif Require Import Base ListAux Field Zq Vec MathModel PolyModel PolySpec PolyProofs R1csModel R1csSpec R1csProofs R1csMore R1csApi CommitModel SigmaModel CommitSpec CommitProofs LogProofs SigmaApi.
From Verif Require Import SumModel NizkModel NizkProofs NizkApi EvalSpec AgmSpec AgmRare AgmZk AgmApi EqSpec EqProofs EqApi FreeSpec FreeProofs.
Import ListNotations.

Section FA.
  Context {K : Fld}.
  Context {bytes : Type} (parse : bytes -> option K) (digest_of : r1cs K -> list nat).

  Lemma api_accepts_iff {G : Mod K} {E : Enc G} nc nv ni (A B C : list (nat * nat * bytes)) I stream (g : r1csgens G) (input : list K) (pf : nizk E) (tr : log E) cs :
    instance_new parse digest_of nc nv ni A B C = Ok I -> nizkgens_new nv ni stream = Ok g ->
    let a := Nat.log2_up (pad_cons nc) in let b := Nat.log2_up (pad_vars nv ni) in
    length (bp_R (lp_bullet (rp_eval (nz_proof pf)))) = length (bp_L (lp_bullet (rp_eval (nz_proof pf)))) ->
    length cs = nizk_coins a b (b - b / 2) ->
    (exists tr', nizk_verify (coins tr cs) pf I input tr g = Ok tr') <->
    (nizk_wf a b (inst I) input pf cs /\ forall w, In w (nizk_eqs a b (inst I) input g pf cs) -> w = g0).
  Proof.
    intros HI Hg a b Bal L. destruct (new_sized _ _ _ _ _ _ _ _ _ _ _ _ HI) as (Sz & Ei & Ev & W & Ec). fold a b in Sz.
    unfold nizkgens_new in Hg. rewrite <- Ev, (sz_vars _ _ _ Sz) in Hg. split.
    - intros [t' V]. exact (nizk_fwd stream a b I Sz input g Hg (coins tr cs) pf tr cs t' Bal (coins_answers tr cs) L V).
    - intros [Wf Z]. exact (nizk_bwd stream a b I Sz input g Hg (coins tr cs) pf tr cs Bal (coins_answers tr cs) L Wf Z).
  Qed.

  Lemma sent_balanced {G : Mod K} {E : Enc G} a b k (s : nizk_plan E a b k) cs :
    length (bp_R (lp_bullet (rp_eval (nz_proof (nizk_sent s cs))))) = length (bp_L (lp_bullet (rp_eval (nz_proof (nizk_sent s cs))))).
  Proof.
    unfold nizk_sent. repeat match goal with |- context [let '(_, _) := ?x in _] => destruct x end. cbn [nz_proof rp_eval lp_bullet bp_R bp_L]. now rewrite !map_length.
  Qed.

  Lemma api_agm_real {G : Mod K} (E : Enc G) nc nv ni (A B C : list (nat * nat * bytes)) I N stream (g : r1csgens G) gF (input : list K) (tr : log E) :
    instance_new parse digest_of nc nv ni A B C = Ok I -> nizkgens_new nv ni stream = Ok g -> nizkgens_new nv ni (unit_vec N) = Ok gF ->
    let a := Nat.log2_up (pad_cons nc) in let b := Nat.log2_up (pad_vars nv ni) in let k := (b - b / 2)%nat in
    (5 <= N)%nat -> (2 ^ k + 1 < N)%nat ->
    forall s : nizk_plan (known_enc E N stream) a b k,
    instance_is_sat I (firstn (2 ^ b) (committed (fun i (v : free K N) => entry i v) (2 ^ k) (fst s))) input <> Ok true ->
    rare 6 (nizk_coins a b k) (fun cs =>
      (exists tr', nizk_verify (coins tr cs) (nizk_over (bare E N stream) (nizk_sent s cs)) I input tr g = Ok tr') /\
      ~ exists w, In w (nizk_eqs a b (inst I) input gF (nizk_sent s cs) cs) /\ w <> g0 /\ combine_gens N stream w = g0).
  Proof.
    intros HI Hg HgF a b k N5 NL s NS.
    apply (rare_impl 6 (nizk_coins a b k) _ (fun cs => exists tr', nizk_verify (coins ([] : log (known_enc E N stream)) cs) (nizk_sent s cs) I input [] gF = Ok tr')).
    2:{ exact (api_agm parse digest_of nc nv ni A B C I N (unit_vec N) _ gF input [] HI HgF (free_coordinates N) N5 NL s NS). }
    intros cs L [V NR]. pose proof (sent_balanced a b k s cs) as Bal.
    assert (Bal' : length (bp_R (lp_bullet (rp_eval (nz_proof (nizk_over (bare E N stream) (nizk_sent s cs)))))) = length (bp_L (lp_bullet (rp_eval (nz_proof (nizk_over (bare E N stream) (nizk_sent s cs))))))).
    { destruct (nizk_sent s cs) as [p rx ry]. cbn [nizk_over nz_proof] in *. unfold rp_over. destruct (rp_claims p) as [[[? ?] ?] ?]. cbn [rp_eval lp_over lp_bullet bp_L bp_R]. now rewrite !map_length. }
    apply (api_accepts_iff nc nv ni A B C I stream g input _ tr cs HI Hg Bal' L) in V. destruct V as [Wf Z].
    apply (api_accepts_iff nc nv ni A B C I (unit_vec N) gF input _ [] cs HI HgF Bal L). split; [exact (nizk_wf_over E N stream _ _ _ _ _ _ Wf)|].
    assert (Eq : map (combine_gens N stream) (nizk_eqs a b (inst I) input gF (nizk_sent s cs) cs) = nizk_eqs a b (inst I) input g (nizk_over (bare E N stream) (nizk_sent s cs)) cs).
    { destruct (new_sized _ _ _ _ _ _ _ _ _ _ _ _ HI) as (Sz & Ei & Ev & W & Ec). fold a b in Sz. unfold nizkgens_new in Hg, HgF. rewrite <- Ev, (sz_vars _ _ _ Sz) in Hg, HgF.
      destruct (r1csgens_over N stream b g gF N5 NL Hg HgF) as (O1 & O3 & O4 & O5 & O6). now apply nizk_over_eqs. }
    intros w Hw. destruct (geqb_spec _ _ w g0) as [->|Ne]; [reflexivity|]. exfalso. apply NR. exists w. split; [exact Hw|]. split; [exact Ne|].
    apply Z. fold a b. rewrite <- Eq. now apply in_map.
  Qed.

  (** counted *)
  Lemma api_agm_count {G : Mod K} (E : Enc G) nc nv ni (A B C : list (nat * nat * bytes)) I N stream (g : r1csgens G) gF (input : list K) (tr : log E) :
    instance_new parse digest_of nc nv ni A B C = Ok I -> nizkgens_new nv ni stream = Ok g -> nizkgens_new nv ni (unit_vec N) = Ok gF ->
    let a := Nat.log2_up (pad_cons nc) in let b := Nat.log2_up (pad_vars nv ni) in let k := (b - b / 2)%nat in let n := nizk_coins a b k in
    (5 <= N)%nat -> (2 ^ k + 1 < N)%nat -> (forall vars, instance_is_sat I vars input <> Ok true) ->
    forall (s : nizk_plan (known_enc E N stream) a b k) (Q : list K) (V : list (list K)), NoDup Q -> NoDup V ->
    (forall cs, In cs V -> length cs = n /\ incl cs Q /\
      (exists tr', nizk_verify (coins tr cs) (nizk_over (bare E N stream) (nizk_sent s cs)) I input tr g = Ok tr') /\
      ~ exists w, In w (nizk_eqs a b (inst I) input gF (nizk_sent s cs) cs) /\ w <> g0 /\ combine_gens N stream w = g0) ->
    (length V * length Q <= n * 6 * length Q ^ n)%nat.
  Proof.
    intros HI Hg HgF a b k n N5 NL NS s Q V NQ NV HV.
    exact (rare_count 6 Q NQ n _ V (api_agm_real E nc nv ni A B C I N stream g gF input tr HI Hg HgF N5 NL s (NS _)) NV HV).
  Qed.
End FA.

(** * examples *)
Definition fcs : list Fp := tab 23 (fun i => fp (Z.of_nat i + 2)).
Lemma bind_inv {A B} (c : res A) (f : A -> res B) v : bind c f = Ok v -> exists x, c = Ok x /\ f x = Ok v.
Proof. destruct c; try discriminate. eauto. Qed.
Lemma frun_ok : (
  do ii <- instance_new zparse (fun _ => [1; 2; 3]%nat) 1 1 1 nzA nzA nzC;
  do g <- nizkgens_new 1 1 exStream;
  do p <- nizk_prove (E:=exE) (coins [] fcs) ii [fp 5] [fp 25] g (fp 17) [];
  do tr' <- nizk_verify (coins [] fcs) (fst p) ii [fp 25] [] g;
  let q := lp_bullet (rp_eval (nz_proof (fst p))) in Ok (Nat.eqb (length (bp_R q)) (length (bp_L q)))) = Ok true.
Proof. vm_compute. reflexivity. Qed.
Lemma case70 : exists ii g pf tr', instance_new zparse (fun _ => [1; 2; 3]%nat) 1 1 1 nzA nzA nzC = Ok ii /\ nizkgens_new 1 1 exStream = Ok g /\
  length (bp_R (lp_bullet (rp_eval (nz_proof pf)))) = length (bp_L (lp_bullet (rp_eval (nz_proof pf)))) /\
  length fcs = nizk_coins 1 1 1 /\ Nat.log2_up (pad_cons 1) = 1%nat /\ Nat.log2_up (pad_vars 1 1) = 1%nat /\
  nizk_verify (E:=exE) (coins [] fcs) pf ii [fp 25] [] g = Ok tr'.
Proof.
  pose proof frun_ok as X. apply bind_inv in X. destruct X as (ii & Ei & X). apply bind_inv in X. destruct X as (g & Eg & X).
  apply bind_inv in X. destruct X as (p & Ep & X). apply bind_inv in X. destruct X as (tr' & Ev & X). injection X as X. apply Nat.eqb_eq in X.
  exists ii, g, (fst p), tr'. split; [exact Ei|]. split; [exact Eg|]. split; [exact X|]. split; [reflexivity|]. split; [reflexivity|]. split; [reflexivity|]. exact Ev.
Qed.

(** a prover who commits to the first two generators, and sends zeros *)
Fixpoint zk_zero {K : Fld} {G : Mod K} (E : Enc G) (n : nat) (A : Type) (x : A) : zk_plan E n A :=
  match n return zk_plan E n A with
  | O => x
  | S n' => (CommitModel.compress E g0, fun _ => (CommitModel.compress E g0, fun _ _ => ((CommitModel.compress E g0, CommitModel.compress E g0), fun _ => (([], f0, f0), zk_zero E n' A x))))
  end.
Fixpoint lr_zero {K : Fld} {G : Mod K} (E : Enc G) (n : nat) (A : Type) (x : A) : lr_plan E n A :=
  match n return lr_plan E n A with
  | O => x
  | S n' => ((CommitModel.compress E g0, CommitModel.compress E g0), fun _ => lr_zero E n' A x)
  end.
Definition zero_plan {K : Fld} {G : Mod K} (E : Enc G) (a b k : nat) (C : list E) : nizk_plan E a b k :=
  let z := CommitModel.compress E g0 in
  (C, fun _ => zk_zero E a _ ((z, z), fun _ => ((f0, f0), ((z, z, z), (z, z, z), fun _ => ((f0, f0, f0, f0, f0), (z, fun _ => (f0, fun _ _ _ =>
    zk_zero E (S b) _ (z, fun _ => lr_zero E k _ ((z, z), fun _ => ((f0, f0), (z, fun _ => (f0, ([], []))))))))))))).
Lemma case69 : exists ii g gF, nz_unsat = Ok ii /\ nizkgens_new 1 1 exStream = Ok g /\ nizkgens_new 1 1 (unit_vec (K:=Fp) 5) = Ok gF /\
  Nat.log2_up (pad_cons 1) = 1%nat /\ Nat.log2_up (pad_vars 1 1) = 1%nat /\ (2 ^ (1 - 1 / 2) + 1 < 5)%nat /\
  exists s : nizk_plan (known_enc exE 5 exStream) 1 1 (1 - 1 / 2), map point (fst s) = [unit_vec 5 0; unit_vec 5 1] /\
  instance_is_sat ii (firstn (2 ^ 1) (committed (fun i (v : free Fp 5) => entry i v) (2 ^ (1 - 1 / 2)) (fst s))) [fp 3] <> Ok true.
Proof.
  destruct case31 as (ii & g & Ei & Eg & F & _).
  assert (Og : is_ok (nizkgens_new 1 1 (unit_vec (K:=Fp) 5)) = true) by (vm_compute; reflexivity). apply is_ok_ex in Og. destruct Og as [gF EF].
  exists ii, g, gF. split; [exact Ei|]. split; [exact Eg|]. split; [exact EF|]. split; [reflexivity|]. split; [reflexivity|]. split; [cbn; lia|].
  exists (zero_plan (known_enc exE 5 exStream) 1 1 (1 - 1 / 2) (map (CommitModel.compress (known_enc exE 5 exStream)) [unit_vec 5 0; unit_vec 5 1])).
  split; [|apply F]. unfold zero_plan. cbn [fst]. rewrite map_map. rewrite (map_ext _ (fun x => x)) by (intro; apply point_cmp). apply map_id.
Qed.
Lemma case69_free : coordinates 5 (unit_vec 5) (fun i (v : free Fp 5) => entry i v) /\ exists g, nizkgens_new 1 1 (unit_vec (K:=Fp) 5) = Ok g.
Proof. split; [apply free_coordinates|]. destruct case69 as (_ & _ & gF & _ & _ & EF & _). exists gF. exact EF. Qed.
