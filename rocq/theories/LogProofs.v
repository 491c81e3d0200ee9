From Coq Require Import String List Arith Bool Lia Field.
From Verif Require Import Base ListAux Field Vec MathModel PolyModel PolySpec PolyProofs PolyImp CommitModel SigmaModel CommitSpec CommitProofs BulletProofs.
Import ListNotations.

Section LP.
  Context {K : Fld} {G : Mod K} {E : Enc G}.
  Variable H : log E -> K.
  Add Field Klp : (fth K).
  Local Open Scope fld_scope.

  Lemma lp_complete (stream : nat -> G) (g : dgens G) k (tr tape : log E) (x : list K) (blind_x : K) (a : list K) (blind_y : K) :
    (k < 32)%nat -> length x = (2 ^ k)%nat -> length a = (2 ^ k)%nat -> dgens_new (2 ^ k) stream = Ok g ->
    (forall pf Cx Cy tr' tape', lp_prove H g tr tape x blind_x a (dot x a) blind_y = Ok (pf, Cx, Cy, tr', tape') ->
      Cx = compress E (ped (dgN g) x blind_x) /\ Cy = compress E (ped1 (dg1 g) (dot x a) blind_y) /\
      lp_verify H pf (2 ^ k) g tr a Cx Cy = Ok tr') /\
    unless H "u" 0 k (exists r, lp_prove H g tr tape x blind_x a (dot x a) blind_y = Ok r).
  Proof.
    intros L32 Lx La Hg. rewrite dgens_new_ok in Hg. injection Hg as <-.
    set (n := (2 ^ k)%nat) in *. set (h := stream (n + 1)%nat). set (G1 := stream n). set (gN := MkGens n (tab n stream) h). set (g1 := MkGens 1 [G1] h).
    assert (HN : gens_ok gN) by (unfold gens_ok; cbn; apply tab_length). assert (H1 : gens_ok g1) by reflexivity.
    unfold lp_prove. cbn [dgn dgN dg1]. rewrite Lx, La, !Nat.eqb_refl. unfold random_scalar, challenge.
    set (d := H (MChal "d" :: tape)). set (t1 := MChal "d" :: tape). set (rd := H (MChal "r_delta" :: t1)). set (rb := H (MChal "r_delta" :: MChal "r_delta" :: t1)).
    unfold n at 1 2 3 4. rewrite log_2_ok. cbn [bind]. fold n. unfold random_vector.
    set (t2 := MChal "r_delta" :: MChal "r_delta" :: t1).
    pose proof (challenges_length H "blinds_vec_1" (2 * k) t2) as Lv1. destruct (challenges H "blinds_vec_1" (2 * k) t2) as [v1 t3].
    pose proof (challenges_length H "blinds_vec_2" (2 * k) t3) as Lv2. destruct (challenges H "blinds_vec_2" (2 * k) t3) as [v2 t4]. cbn [fst] in Lv1, Lv2.
    rewrite (commit_ok x blind_x gN HN Lx). cbn [bind]. rewrite (commit1_ok _ _ g1 H1 eq_refl). cbn [bind].
    set (Cx := compress E (ped gN x blind_x)). set (Cy := compress E (ped1 g1 (dot x a) blind_y)).
    set (tr1 := app_scalars "a" a _). set (r := H (MChal "r" :: tr1)).
    rewrite (gens_scale_ok g1 r H1). cbn [bind gn gG gh g1 map]. rewrite idx_0. cbn [bind].
    set (Q := gmul r G1).
    destruct (bullet_complete H (MChal "r" :: tr1) Q (gG gN) h x a (blind_x + r * blind_y) (combine v1 v2) k L32) as [B1 B2].
    { apply tab_length. } { exact Lx. } { exact La. } { rewrite combine_length; lia. }
    split.
    - intros pf Cx' Cy' tr' tape' Hp. cbn [gh gN] in Hp.
      destruct (bullet_prove H (MChal "r" :: tr1) Q (gG gN) h x a (blind_x + r * blind_y) (combine v1 v2)) as [[[[[[[bp Gh] xh] ah] gh'] rh] tr2]| |] eqn:Eb; try discriminate Hp.
      cbn [bind] in Hp. destruct (B1 _ _ _ _ _ _ _ eq_refl) as [EG EV]. clear B1 B2.
      rewrite (commit1_ok d rd (MkGens 1 [gh'] h) eq_refl eq_refl) in Hp. cbn [bind] in Hp.
      rewrite (commit1_ok d rb (MkGens 1 [Q] h) eq_refl eq_refl) in Hp. cbn [bind] in Hp.
      injection Hp as <- <- <- <- <-. split; [reflexivity|]. split; [reflexivity|].
      unfold lp_verify. cbn [dgn dgN dg1]. rewrite La, !Nat.eqb_refl. unfold challenge. fold tr1. fold r.
      rewrite (gens_scale_ok g1 r H1). cbn [bind gn gG gh g1 map]. unfold Cx, Cy. rewrite !unpack_comp. cbn [bind lp_bullet].
      replace (gadd (ped gN x blind_x) (gmul r (ped1 g1 (dot x a) blind_y))) with
        (gadd (gadd (lincomb x (gG gN)) (gmul (dot x a) Q)) (gmul (blind_x + r * blind_y) h)).
      2: { rewrite (ped1_unfold g1 G1 _ _ eq_refl). unfold ped, Q. cbn [gh g1 gN]. module_red; ring. }
      fold g1 gN. change (tab n stream) with (gG gN). fold n in EV. rewrite EV. cbn [bind lp_delta lp_beta]. rewrite !unpack_comp. cbn [bind]. rewrite idx_0. cbn [bind lp_z1 lp_z2].
      rewrite eeqb_comp_eq; [reflexivity|]. fold Q.
      rewrite EG. rewrite (ped1_unfold (MkGens 1 [Q] h) Q _ _ eq_refl). rewrite (ped1_unfold (MkGens 1 [gh'] h) gh' _ _ eq_refl). cbn [gh].
      module_red; ring.
    - refine (unless_mono H _ _ _ _ _ _ B2). intros [[[[[[[bp Gh] xh] ah] gh'] rh] tr2] Eb']. cbn [gh gN] in *. fold g1 gN. rewrite Eb'. cbn [bind].
      rewrite (commit1_ok d rd (MkGens 1 [gh'] h) eq_refl eq_refl). cbn [bind].
      rewrite (commit1_ok d rb (MkGens 1 [Q] h) eq_refl eq_refl). cbn [bind]. eexists. reflexivity.
  Qed.
End LP.

Section PE.
  Context {K : Fld} {G : Mod K} {E : Enc G}.
  Variable H : log E -> K.
  Add Field Kpe : (fth K).
  Local Open Scope fld_scope.

  (** row vector times matrix given by rows *)
  Fixpoint vecmat (w : nat) (L : list K) (rows : list (list K)) : list K :=
    match L, rows with
    | l :: L', row :: rows' => vadd (map (fmul l) row) (vecmat w L' rows')
    | _, _ => repeat 0 w
    end.
  Lemma vecmat_length w L : forall rows, (forall r, In r rows -> length r = w) -> length (vecmat w L rows) = w.
  Proof.
    induction L as [|l L IH]; intros [|row rows] HR; cbn [vecmat]; try apply repeat_length.
    unfold vadd. rewrite map2_length, map_length, IH by (intros; apply HR; now right). rewrite (HR row) by now left. lia.
  Qed.
  Lemma vecmat_lincomb w (gs : list G) L : forall rows, (forall r, In r rows -> length r = w) ->
    lincomb L (map (fun row => lincomb row gs) rows) = lincomb (vecmat w L rows) gs.
  Proof.
    induction L as [|l L IH]; intros [|row rows] HR; cbn [map lincomb vecmat]; try (now rewrite lincomb_repeat0).
    rewrite IH by (intros; apply HR; now right). rewrite lincomb_vadd, lincomb_scale; [reflexivity|].
    rewrite map_length, vecmat_length by (intros; apply HR; now right). apply HR. now left.
  Qed.
  Lemma vecmat_nth w i (Hi : (i < w)%nat) L : forall rows, (forall r, In r rows -> length r = w) ->
    nth i (vecmat w L rows) 0 = dot L (map (fun row => nth i row 0) rows).
  Proof.
    induction L as [|l L IH]; intros [|row rows] HR; cbn [map vecmat].
    1-3: rewrite ?(dot_nil_l K), ?(dot_nil_r K); apply nth_repeat.
    rewrite (dot_cons K). unfold vadd. rewrite (map2_nth fadd _ _ i 0 0 0).
    - rewrite IH by (intros; apply HR; now right). rewrite (nth_map0 (fmul l) row i 0 0); [reflexivity|]. rewrite (HR row) by now left. exact Hi.
    - rewrite map_length, (HR row) by now left. exact Hi.
    - rewrite vecmat_length by (intros; apply HR; now right). exact Hi.
  Qed.
  Lemma lincomb_ped (g : gens G) L : forall rows blinds, length rows = length blinds ->
    lincomb L (map2 (ped g) rows blinds) = gadd (lincomb L (map (fun row => lincomb row (gG g)) rows)) (gmul (dot L blinds) (gh g)).
  Proof.
    induction L as [|l L IH]; intros [|row rows] [|b blinds] HL; try discriminate HL; cbn [map map2 lincomb];
      rewrite ?(dot_nil_l K), ?(dot_nil_r K); try (module_red; ring).
    rewrite IH by (now injection HL). rewrite (dot_cons K). unfold ped. module_red; ring.
  Qed.
  Lemma dense_bound_vecmat (Z r L : list K) LZ : length Z = (2 ^ length r)%nat -> length L = (2 ^ (length r / 2))%nat ->
    length LZ = (2 ^ (length r - length r / 2))%nat ->
    (forall i, (i < 2 ^ (length r - length r / 2))%nat -> nth i LZ 0 =
        sumn (2 ^ (length r / 2)) (fun j => nth j L 0 * nth (j * 2 ^ (length r - length r / 2) + i) Z 0)) ->
    LZ = vecmat (2 ^ (length r - length r / 2)) L
      (tab (2 ^ (length r / 2)) (fun j => firstn (2 ^ (length r - length r / 2)) (skipn (2 ^ (length r - length r / 2) * j) Z))).
  Proof.
    set (m := (length r / 2)%nat). set (w := (2 ^ (length r - m))%nat). intros LZl LL LLZ HN.
    assert (Hm : (m <= length r)%nat) by (apply Nat.div_le_upper_bound; lia).
    assert (Hp : (2 ^ m * w = 2 ^ length r)%nat) by (unfold w; rewrite <- Nat.pow_add_r; f_equal; lia).
    assert (HR : forall row, In row (tab (2 ^ m) (fun j => firstn w (skipn (w * j) Z))) -> length row = w).
    { intros row Hrow. apply in_map_iff in Hrow. destruct Hrow as (j & <- & Hj). apply in_seq in Hj.
      rewrite firstn_length_le; [reflexivity|]. rewrite skipn_length, LZl, <- Hp. nia. }
    apply (list_ext _ _ 0); [now rewrite vecmat_length|]. intros i Hi. rewrite LLZ in Hi. rewrite HN by exact Hi. rewrite vecmat_nth by assumption.
    rewrite map_tab. rewrite <- (tab_nth L 0) at 1. rewrite LL. rewrite (dot_tab K). apply sumn_ext. intros j Hj. f_equal.
    rewrite firstn_nth by exact Hi. rewrite skipn_nth. f_equal. lia.
  Qed.

  Lemma commit_inner_ok (Z blinds : list K) (g : gens G) w : gens_ok g -> gn g = w -> (0 < length blinds)%nat -> length Z = (length blinds * w)%nat ->
    commit_inner (E:=E) Z blinds g =
      Ok (map (compress E) (map2 (ped g) (tab (length blinds) (fun j => firstn w (skipn (w * j) Z))) blinds)).
  Proof.
    intros Hg N Hb LZ. unfold commit_inner. destruct (Nat.ltb_spec 0 (length blinds)); [|lia].
    rewrite LZ. replace (length blinds * w / length blinds)%nat with w by (rewrite Nat.mul_comm, Nat.div_mul; lia). rewrite Nat.eqb_refl.
    rewrite (mapM_ok _ (fun i => compress E (ped g (firstn w (skipn (w * i) Z)) (nth i blinds 0)))).
    - f_equal. set (n := length blinds). replace (map2 (ped g) (tab n (fun j => firstn w (skipn (w * j) Z))) blinds) with
        (map2 (ped g) (tab n (fun j => firstn w (skipn (w * j) Z))) (tab n (fun i => nth i blinds 0))) by (unfold n; now rewrite (tab_nth blinds 0)).
      rewrite map2_tab. rewrite map_tab. reflexivity.
    - intros i Hi. apply in_seq in Hi. rewrite (idx_nth blinds i 0) by lia. cbn [bind].
      rewrite commit_ok; [reflexivity|exact Hg|]. rewrite firstn_length_le; [congruence|]. rewrite skipn_length, LZ. nia.
  Qed.

  Lemma commit_opens (g : gens G) (v : list K) b (C : E) : C = compress E (ped g v b) -> opens g C v b.
  Proof. intros ->. apply dec_comp. Qed.

  Lemma poly_commit_ok (Z : list K) ell (g : dgens G) stream tp : length Z = (2 ^ ell)%nat -> pcgens_new ell stream = Ok g ->
    exists blinds tp', length blinds = (2 ^ (ell / 2))%nat /\ (tp = None -> blinds = repeat 0 (2 ^ (ell / 2))) /\
    poly_commit H (MkDense ell (2 ^ ell) Z) g tp =
      Ok (map (compress E) (map2 (ped (dgN g)) (tab (length blinds) (fun j => firstn (2 ^ (ell - ell / 2)) (skipn (2 ^ (ell - ell / 2) * j) Z))) blinds), blinds, tp').
  Proof.
    intros LZ Hg. unfold pcgens_new, compute_factored_lens, snd, pow2 in Hg. rewrite dgens_new_ok in Hg. injection Hg as <-.
    set (m := (ell / 2)%nat). assert (Hm : (m <= ell)%nat) by (apply Nat.div_le_upper_bound; lia).
    assert (Hp : (2 ^ m * 2 ^ (ell - m) = 2 ^ ell)%nat) by (rewrite <- Nat.pow_add_r; f_equal; lia).
    unfold poly_commit, compute_factored_lens, pow2. cbn [dZ dnum_vars dgN]. rewrite LZ, Nat.eqb_refl. fold m. rewrite Hp, Nat.eqb_refl.
    set (gN := MkGens _ _ _). assert (HN : gens_ok gN) by (unfold gens_ok; cbn; apply tab_length).
    pose proof (pow2_pos m) as Pm.
    destruct tp as [t|].
    - unfold random_vector. pose proof (challenges_length H "poly_blinds" (2 ^ m) t) as Lb. destruct (challenges H "poly_blinds" (2 ^ m) t) as [v t']. cbn [fst] in Lb.
      exists v, (Some t'). split; [exact Lb|]. split; [discriminate|].
      rewrite (commit_inner_ok Z v gN (2 ^ (ell - m))) by (try assumption; try reflexivity; try lia; congruence). reflexivity.
    - exists (repeat 0 (2 ^ m)), None. split; [apply repeat_length|]. split; [reflexivity|].
      rewrite (commit_inner_ok Z _ gN (2 ^ (ell - m))) by (try assumption; try reflexivity; rewrite repeat_length; try lia; congruence). reflexivity.
  Qed.

  Lemma pe_complete (Z r : list K) (d : dense K) (g : dgens G) stream tp C blinds tp' bopt zopt (tr tape : log E) :
    length Z = (2 ^ length r)%nat -> (length r - length r / 2 < 32)%nat ->
    dense_new Z = Ok d -> pcgens_new (length r) stream = Ok g ->
    poly_commit H d g tp = Ok (C, blinds, tp') ->
    (bopt = Some blinds \/ (bopt = None /\ tp = None)) ->
    (forall pf CZ tr' tape', pe_prove H d bopt r (mle Z r) zopt g tr tape = Ok (pf, CZ, tr', tape') ->
      CZ = compress E (ped1 (dg1 g) (mle Z r) (blind_of zopt)) /\
      pe_verify H pf g tr r CZ C = Ok tr' /\
      (blind_of zopt = 0 -> pe_verify_plain H pf g tr r (mle Z r) C = Ok tr')) /\
    unless H "u" 0 (length r - length r / 2) (exists x, pe_prove H d bopt r (mle Z r) zopt g tr tape = Ok x).
  Proof.
    intros LZ L32 Hd Hg Hc Hb. destruct (dense_new_ok K Z _ LZ) as (Ed & _ & _). rewrite Ed in Hd. injection Hd as <-.
    destruct (poly_commit_ok Z (length r) g stream tp LZ Hg) as (bl & tp2 & Lbl & Hzero & Epc). rewrite Epc in Hc. injection Hc as <- <- <-.
    assert (Hbl : match bopt with Some b => b | None => repeat 0 (2 ^ (length r / 2)) end = bl).
    { destruct Hb as [->|[-> Ht]]; [reflexivity|]. symmetry. apply Hzero, Ht. }
    destruct (bound_dot K Z r LZ) as (LZv & EB & LLZ & DLZ & HN). pose proof (factored_ok K r) as F.
    destruct (compute_factored_evals r) as [L R] eqn:EF. cbn [fst snd] in *. destruct F as (HL & HR & _).
    pose proof (dense_bound_vecmat Z r L LZv LZ HL LLZ HN) as EV.
    set (m := (length r / 2)%nat) in *. set (w := (2 ^ (length r - m))%nat) in *.
    set (rows := tab (2 ^ m) (fun j => firstn w (skipn (w * j) Z))) in *.
    assert (HRw : forall row, In row rows -> length row = w).
    { intros row Hrow. apply in_map_iff in Hrow. destruct Hrow as (j & <- & Hj). apply in_seq in Hj.
      assert (Hm : (m <= length r)%nat) by (apply Nat.div_le_upper_bound; lia).
      assert (Hp : (2 ^ m * w = 2 ^ length r)%nat) by (unfold w; rewrite <- Nat.pow_add_r; f_equal; lia).
      rewrite firstn_length_le; [reflexivity|]. rewrite skipn_length, LZ, <- Hp. nia. }
    assert (Lrows : length rows = length bl) by (unfold rows; rewrite tab_length; congruence).
    pose proof Hg as Hg2. unfold pcgens_new, compute_factored_lens, snd, pow2 in Hg2. fold m in Hg2. fold w in Hg2.
    assert (P : forall tr0, pe_prove H (MkDense (length r) (2 ^ length r) Z) bopt r (mle Z r) zopt g tr0 tape =
      (do p <- lp_prove H g (proto "polynomial evaluation proof" tr0) tape LZv (dot bl L) R (dot LZv R) (blind_of zopt);
       let '(pf, _, C_Zr, tr, tape) := p in Ok (pf, C_Zr, tr, tape))).
    { intro tr0. unfold pe_prove, compute_factored_lens. cbn [dnum_vars]. rewrite Nat.eqb_refl. fold m. unfold pow2. rewrite Hbl, Lbl, Nat.eqb_refl, EF, HL, HR. fold w. rewrite !Nat.eqb_refl, EB. cbn [bind].
      rewrite DLZ. unfold blind_of. destruct zopt; reflexivity. }
    assert (C1 : lincomb L (map2 (ped (dgN g)) rows bl) = ped (dgN g) LZv (dot bl L)).
    { rewrite lincomb_ped by exact Lrows. rewrite (vecmat_lincomb w) by exact HRw. unfold ped. rewrite <- EV. rewrite (dot_comm K L bl). reflexivity. }
    assert (VV : forall pf CZ tr', lp_verify H pf w g (proto "polynomial evaluation proof" tr) R (compress E (ped (dgN g) LZv (dot bl L))) CZ = Ok tr' ->
       pe_verify H pf g tr r CZ (map (compress E) (map2 (ped (dgN g)) (tab (length bl) (fun j => firstn w (skipn (w * j) Z))) bl)) = Ok tr').
    { intros pf CZ tr' HV. unfold pe_verify. rewrite EF, mapM_unpack. cbn [bind].
      rewrite Lbl. fold rows. rewrite msm_ok by (rewrite map2_length; lia). cbn [bind]. rewrite C1, HR. exact HV. }
    destruct (lp_complete H stream g (length r - m) (proto "polynomial evaluation proof" tr) tape LZv (dot bl L) R (blind_of zopt) L32 LLZ HR Hg2) as [Q1 Q2].
    rewrite P. split.
    - intros pf CZ tr' tape' Hp. destruct (lp_prove H g _ tape LZv (dot bl L) R (dot LZv R) (blind_of zopt)) as [[[[[pf0 Cx0] Cy0] tr0] tape0]| |] eqn:Elp; try discriminate Hp.
      cbn [bind] in Hp. injection Hp as <- <- <- <-. destruct (Q1 _ _ _ _ _ eq_refl) as (-> & -> & HV). rewrite DLZ in *. split; [reflexivity|].
      split; [apply VV, HV|]. intro Hz. unfold pe_verify_plain. rewrite dgens_new_ok in Hg2. rewrite Hz in *.
      assert (EC : commit1 (mle Z r) 0 (dg1 g) = Ok (ped1 (dg1 g) (mle Z r) 0)) by (injection Hg2 as <-; apply commit1_ok; reflexivity).
      rewrite EC. cbn [bind]. apply VV, HV.
    - refine (unless_mono H _ _ _ _ _ _ Q2). intros [[[[[pf0 Cx0] Cy0] tr0] tape0] ->]. eexists. reflexivity.
  Qed.
End PE.
