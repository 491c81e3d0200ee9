From Coq Require Import String List Arith ZArith Bool Lia Field.
From Verif Require Import Base ListAux Field Zq Vec MathModel PolyModel PolySpec PolyProofs PolyImp CommitModel SigmaModel CommitSpec CommitProofs BulletProofs LogProofs SigmaApi EvalSpec EvalProofs ExSmall.
Import ListNotations.

Section EA.
  Context {K : Fld} {G : Mod K} {E : Enc G}.
  Add Field Kea : (fth K).
  Local Open Scope fld_scope.

  Lemma all_runs_mono (acc acc' : list K -> K -> Prop) ahat : (forall us c, acc us c -> acc' us c) ->
    forall k us t, all_runs acc ahat k us t -> all_runs acc' ahat k us t.
  Proof.
    intro M. induction k as [|k IH]; intros us [c c'|u1 u2 u3 t1 t2 t3]; cbn [all_runs]; try tauto.
    - intros (A & B & C & D). repeat split; auto.
    - intros (A & B & C & D & F). repeat (split; [assumption|]). repeat split; now apply IH.
  Qed.

  Lemma api_extract (stream : nat -> G) (k : nat) (g : dgens G) (tr : log E) (a : list K) (Cx Cy : E) (r : K) (s : strategy E) (t : ctree) :
    dgens_new (2 ^ k) stream = Ok g -> length a = (2 ^ k)%nat ->
    all_runs (fun us c => exists tr', lp_verify (coins tr (r :: us ++ [c])) (sends s us c) (2 ^ k) g tr a Cx Cy = Ok tr') (last_scalar a) k [] t ->
    exists X Y, decompress E Cx = Some X /\ decompress E Cy = Some Y /\
    let '(x, b) := extract s (last_scalar a) [] t in length x = (2 ^ k)%nat /\
    gadd X (gmul r Y) = gadd (gadd (lincomb x (tab (2 ^ k) stream)) (gmul (r * dot x a) (stream (2 ^ k)%nat))) (gmul b (stream (2 ^ k + 1)%nat)).
  Proof. intros Hg La Hr. exact (lp_extract stream k g tr a Cx Cy r s Hg La t Hr). Qed.

  Lemma api_lp_sound (stream : nat -> G) (k : nat) (g : dgens G) (tr : log E) (a : list K) (Cx Cy : E) (r : K) (s : strategy E) (t : ctree)
      (x0 : list K) (bx y by_ : K) :
    dgens_new (2 ^ k) stream = Ok g -> length a = (2 ^ k)%nat -> r <> 0 -> length x0 = (2 ^ k)%nat ->
    opens (dgN g) Cx x0 bx -> opens1 (dg1 g) Cy y by_ ->
    all_runs (fun us c => exists tr', lp_verify (coins tr (r :: us ++ [c])) (sends s us c) (2 ^ k) g tr a Cx Cy = Ok tr') (last_scalar a) k [] t ->
    y <> dot x0 a ->
    let '(x, b) := extract s (last_scalar a) [] t in
    let w := map2 fsub x0 x ++ [r * (y - dot x a); bx + r * by_ - b] in
    length w = (2 ^ k + 2)%nat /\ lincomb w (tab (2 ^ k + 2) stream) = g0 /\ exists i, nth i w 0 <> 0.
  Proof. intros Hg La Nr Lx0 Ox Oy Hr Ny. exact (lp_sound stream k g tr a Cx Cy r s Hg La t x0 bx y by_ Nr Lx0 Ox Oy Hr Ny). Qed.

  Lemma api_pe_sound (H : log E -> K) (stream : nat -> G) (Z r : list K) (d : dense K) (g : dgens G) (tp : option (log E)) (C : list E) (blinds : list K)
      (tp' : option (log E)) (CZ : E) (v bv : K) (tr : log E) (r0 : K) (s : strategy E) (t : ctree) :
    length Z = (2 ^ length r)%nat -> dense_new Z = Ok d -> pcgens_new (length r) stream = Ok g ->
    poly_commit H d g tp = Ok (C, blinds, tp') -> opens1 (dg1 g) CZ v bv -> r0 <> 0 ->
    let '(L, R) := compute_factored_evals r in
    all_runs (fun us c => exists tr', pe_verify (coins tr (r0 :: us ++ [c])) (sends s us c) g tr r CZ C = Ok tr')
      (last_scalar R) (length r - length r / 2) [] t ->
    v <> mle Z r ->
    exists LZ, dense_bound d L = Ok LZ /\
    let '(x, b) := extract s (last_scalar R) [] t in
    let w := map2 fsub LZ x ++ [r0 * (v - dot x R); dot blinds L + r0 * bv - b] in
    length w = (2 ^ (length r - length r / 2) + 2)%nat /\ lincomb w (tab (length w) stream) = g0 /\ exists i, nth i w 0 <> 0.
  Proof.
    intros LZ Hd Hg Hc Oz Nr. destruct (dense_new_ok K Z _ LZ) as (Ed & _ & _). rewrite Ed in Hd. injection Hd as <-.
    destruct (poly_commit_ok H Z (length r) g stream tp LZ Hg) as (bl & tp2 & Lbl & Hzero & Epc). rewrite Epc in Hc. injection Hc as <- <- <-.
    destruct (bound_dot K Z r LZ) as (LZv & EB & LLZ & DLZ & HN). pose proof (factored_ok K r) as F.
    destruct (compute_factored_evals r) as [L R] eqn:EF. cbn [fst snd] in *. destruct F as (HL & HR & _).
    pose proof (dense_bound_vecmat Z r L LZv LZ HL LLZ HN) as EV.
    set (m := (length r / 2)%nat) in *. set (w := (2 ^ (length r - m))%nat) in *.
    set (rows := tab (2 ^ m) (fun j => firstn w (skipn (w * j) Z))) in *.
    assert (HRw : forall row, In row rows -> length row = w).
    { intros row Hrow. apply in_map_iff in Hrow. destruct Hrow as (j & <- & Hj). apply in_seq in Hj.
      assert (Hm : (m <= length r)%nat) by (apply Nat.div_le_upper_bound; lia).
      assert (Hp : (2 ^ m * w = 2 ^ length r)%nat) by (unfold w; rewrite <- Nat.pow_add_r; f_equal; lia).
      rewrite firstn_length_le; [reflexivity|]. rewrite skipn_length, LZ, <- Hp. nia. }
    assert (Lrows : length rows = length bl) by (unfold rows; rewrite tab_length; congruence).
    assert (Hg2 : dgens_new w stream = Ok g) by exact Hg.
    assert (C1 : lincomb L (map2 (ped (dgN g)) rows bl) = ped (dgN g) LZv (dot bl L)).
    { rewrite lincomb_ped by exact Lrows. rewrite (vecmat_lincomb w) by exact HRw. unfold ped. rewrite <- EV. rewrite (dot_comm K L bl). reflexivity. }
    intros Hr Nv. exists LZv. split; [exact EB|].
    pose proof (api_lp_sound stream (length r - m) g (proto "polynomial evaluation proof" tr) R (compress E (ped (dgN g) LZv (dot bl L))) CZ r0 s t LZv (dot bl L) v bv Hg2 HR Nr LLZ) as S.
    fold w in S. destruct (extract s (last_scalar R) [] t) as [x b]. cbv zeta in S |- *.
    destruct S as (S1 & S2 & S3).
    - apply dec_comp.
    - exact Oz.
    - refine (all_runs_mono _ _ _ _ _ _ _ Hr). intros us c [tr' X]. exists tr'. unfold pe_verify in X. rewrite EF in X.
      rewrite mapM_unpack in X. cbn [bind] in X. rewrite Lbl in X. change (tab (2 ^ m) _) with rows in X. rewrite msm_ok in X; [|clear - HL Lrows Lbl; rewrite map2_length; lia]. cbn [bind] in X.
      rewrite C1, HR in X. exact X.
    - now rewrite DLZ.
    - rewrite S1. auto.
  Qed.

  Lemma api_pe_plain_sound (H : log E -> K) (stream : nat -> G) (Z r : list K) (d : dense K) (g : dgens G) (tp : option (log E)) (C : list E) (blinds : list K)
      (tp' : option (log E)) (v : K) (tr : log E) (r0 : K) (s : strategy E) (t : ctree) :
    length Z = (2 ^ length r)%nat -> dense_new Z = Ok d -> pcgens_new (length r) stream = Ok g ->
    poly_commit H d g tp = Ok (C, blinds, tp') -> r0 <> 0 ->
    let '(L, R) := compute_factored_evals r in
    all_runs (fun us c => exists tr', pe_verify_plain (coins tr (r0 :: us ++ [c])) (sends s us c) g tr r v C = Ok tr')
      (last_scalar R) (length r - length r / 2) [] t ->
    v <> mle Z r ->
    exists LZ, dense_bound d L = Ok LZ /\
    let '(x, b) := extract s (last_scalar R) [] t in
    let w := map2 fsub LZ x ++ [r0 * (v - dot x R); dot blinds L - b] in
    length w = (2 ^ (length r - length r / 2) + 2)%nat /\ lincomb w (tab (length w) stream) = g0 /\ exists i, nth i w 0 <> 0.
  Proof.
    intros LZ Hd Hg Hc Nr.
    assert (EC : commit1 v 0 (dg1 g) = Ok (ped1 (dg1 g) v 0)).
    { pose proof Hg as Hg2. unfold pcgens_new in Hg2. rewrite dgens_new_ok in Hg2. injection Hg2 as <-. apply commit1_ok; reflexivity. }
    pose proof (api_pe_sound H stream Z r d g tp C blinds tp' (compress E (ped1 (dg1 g) v 0)) v 0 tr r0 s t LZ Hd Hg Hc) as S.
    destruct (compute_factored_evals r) as [L R]. intros Hr Nv. destruct S as (LZv & EB & S).
    - apply dec_comp.
    - exact Nr.
    - refine (all_runs_mono _ _ _ _ _ _ _ Hr). intros us c [tr' X]. exists tr'. unfold pe_verify_plain in X. rewrite EC in X. exact X.
    - exact Nv.
    - exists LZv. split; [exact EB|]. destruct (extract s (last_scalar R) [] t) as [x b]. cbv zeta in S |- *.
      replace (dot blinds L - b) with (dot blinds L + r0 * 0 - b) by ring. exact S.
  Qed.
End EA.

(** * a concrete prover.  In the group [sG] discrete logarithms are known, so it can have a
    wrong value accepted in every run: it proves the evaluation of another vector and moves
    the difference into the blind. *)
Section Case.
  Local Open Scope fld_scope.
  (** generators 3, 5 for the vector, 7 for the value, 9 for the blind; vector (x0, x1) with blind b *)
  Definition exStrat (x0 x1 a0 a1 r b : Fs) : strategy sE :=
    let Q := r * fs 7 in
    MkStrategy (E:=sE) (fun _ => (Some (x0 * fs 5 + x0 * a1 * Q), Some (x1 * fs 3 + x1 * a0 * Q)))
      (fun _ => (Some (fs 0), Some (fs 0)))
      (fun us c => let u := hd 1 us in let xh := x0 * u + x1 * finv u in let ah := a0 * finv u + u * a1 in (c * xh * ah, ah * (c * b))).
  Definition exTree : ctree := CNode (fs 1) (fs 2) (fs 3) (CLeaf (fs 1) (fs 2)) (CLeaf (fs 4) (fs 2)) (CLeaf (fs 1) (fs 5)).
End Case.

Ltac zne := let X := fresh in intro X; apply (f_equal zval) in X; vm_compute in X; discriminate X.
Lemma case_lp :
  let a := [fs (-2); fs 3] in let r := fs 7 in let s := exStrat (fs 7) (fs 1) (fs (-2)) (fs 3) r (fs 139) in
  let Cx : sE := Some (fs 45) in let Cy : sE := Some (fs 99) in
  exists g, dgens_new (2 ^ 1) sStream = Ok g /\ length a = (2 ^ 1)%nat /\ r <> fs 0 /\
    opens (dgN g) Cx [fs 5; fs 6] (fs 0) /\ opens1 (dg1 g) Cy (fs 9) (fs 4) /\
    all_runs (fun us c => exists tr', lp_verify (E:=sE) (coins [] (r :: us ++ [c])) (sends s us c) (2 ^ 1) g [] a Cx Cy = Ok tr') (last_scalar a) 1 [] exTree /\
    fs 9 <> dot [fs 5; fs 6] a.
Proof.
  cbv zeta. eexists. split; [apply dgens_new_ok|]. split; [reflexivity|]. split; [zne|].
  split; [refine (f_equal Some (zq_eq _ _ _ _)); vm_compute; reflexivity|].
  split; [refine (f_equal Some (zq_eq _ _ _ _)); vm_compute; reflexivity|].
  split; [|zne].
  cbn [all_runs exTree]. repeat (split; [repeat split; zne|]).
  repeat split; try zne; apply is_ok_ex; vm_compute; reflexivity.
Qed.

Lemma case_pe :
  let Z := [fs 1; fs 2; fs 3; fs 4] in let r := [fs 2; fs 3] in let r0 := fs 7 in
  let s := exStrat (fs 7) (fs 1) (fs (-2)) (fs 3) r0 (fs 139) in let CZ : sE := Some (fs 99) in
  exists d g C blinds tp', length Z = (2 ^ length r)%nat /\ dense_new Z = Ok d /\ pcgens_new (length r) sStream = Ok g /\
    poly_commit (E:=sE) sH d g None = Ok (C, blinds, tp') /\ opens1 (dg1 g) CZ (fs 9) (fs 4) /\ r0 <> fs 0 /\
    all_runs (fun us c => exists tr', pe_verify (E:=sE) (coins [] (r0 :: us ++ [c])) (sends s us c) g [] r CZ C = Ok tr')
      (last_scalar (snd (compute_factored_evals r))) (length r - length r / 2) [] exTree /\
    fs 9 <> mle Z r.
Proof.
  intros Z r r0 s CZ. destruct (dense_new_ok Fs Z 2 eq_refl) as (Ed & _ & _). change (length r) with 2%nat.
  assert (Hg : pcgens_new 2 sStream = Ok (MkDGens 2 (MkGens 2 (tab 2 sStream) (sStream 3)) (MkGens 1 [sStream 2] (sStream 3)))) by apply (dgens_new_ok 2 sStream).
  destruct (poly_commit_ok (E:=sE) sH Z 2 _ sStream None eq_refl Hg) as (bl & tp' & _ & Hz & Epc). rewrite (Hz eq_refl) in Epc. clear bl Hz.
  do 5 eexists. split; [reflexivity|]. split; [exact Ed|]. split; [exact Hg|]. split; [exact Epc|].
  split; [refine (f_equal Some (zq_eq _ _ _ _)); vm_compute; reflexivity|]. split; [zne|]. split; [|zne].
  change (2 - 2 / 2)%nat with 1%nat. cbn [all_runs exTree]. repeat (split; [repeat split; zne|]).
  repeat split; try zne; apply is_ok_ex; vm_compute; reflexivity.
Qed.

(** for the value itself the blind of the commitment to the value is zero *)
Lemma case_pe_plain :
  let Z := [fs 1; fs 2; fs 3; fs 4] in let r := [fs 2; fs 3] in let r0 := fs 7 in
  let s := exStrat (fs 7) (fs 1) (fs (-2)) (fs 3) r0 (fs 111) in
  exists d g C blinds tp', length Z = (2 ^ length r)%nat /\ dense_new Z = Ok d /\ pcgens_new (length r) sStream = Ok g /\
    poly_commit (E:=sE) sH d g None = Ok (C, blinds, tp') /\ r0 <> fs 0 /\
    all_runs (fun us c => exists tr', pe_verify_plain (E:=sE) (coins [] (r0 :: us ++ [c])) (sends s us c) g [] r (fs 9) C = Ok tr')
      (last_scalar (snd (compute_factored_evals r))) (length r - length r / 2) [] exTree /\
    fs 9 <> mle Z r.
Proof.
  intros Z r r0 s. destruct (dense_new_ok Fs Z 2 eq_refl) as (Ed & _ & _). change (length r) with 2%nat.
  assert (Hg : pcgens_new 2 sStream = Ok (MkDGens 2 (MkGens 2 (tab 2 sStream) (sStream 3)) (MkGens 1 [sStream 2] (sStream 3)))) by apply (dgens_new_ok 2 sStream).
  destruct (poly_commit_ok (E:=sE) sH Z 2 _ sStream None eq_refl Hg) as (bl & tp' & _ & Hz & Epc). rewrite (Hz eq_refl) in Epc. clear bl Hz.
  do 5 eexists. split; [reflexivity|]. split; [exact Ed|]. split; [exact Hg|]. split; [exact Epc|].
  split; [zne|]. split; [|zne].
  change (2 - 2 / 2)%nat with 1%nat. cbn [all_runs exTree]. repeat (split; [repeat split; zne|]).
  repeat split; try zne; apply is_ok_ex; vm_compute; reflexivity.
Qed.
