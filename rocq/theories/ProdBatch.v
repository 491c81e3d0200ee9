(** Product circuits: completeness of the batched evaluation proof. *)
From Coq Require Import String List Arith Lia Bool Field Ring.
From Verif Require Import Base ListAux Field Vec MathModel PolyModel PolySpec PolyProofs PolyImp CommitModel SigmaModel CommitProofs SumModel SumSpec SumProofs SumComplete SumApi ProdModel ProdSpec ProdProofs.
Import ListNotations.

Section Dot.
  Context {K : Fld}.
  Local Open Scope fld_scope.
  Add Field Kpd : (fth K).
  Definition dc_of (m : nat) (t : triple K) : dcircuit K := MkDC (dt m (t1 t)) (dt m (t2 t)) (dt m (t3 t)).
  Lemma dc_evaluate_of m t : tlen m t -> dc_evaluate (dc_of m t) = Ok (dot3 (t1 t) (t2 t) (t3 t)).
  Proof.
    intros (A & B & C). unfold dc_evaluate, dc_of. cbn [dc_left dc_right dc_weight dt dlen].
    rewrite (mapM_ok _ (fun i => nth i (t1 t) 0 * nth i (t2 t) 0 * nth i (t3 t) 0)).
    - unfold dot3. rewrite A. reflexivity.
    - intros i Hi. apply in_seq in Hi. unfold dense_index, dt. cbn [dZ]. rewrite !(idx_nth _ _ 0) by lia. reflexivity.
  Qed.
  Lemma dot_split (a b c : list K) : (length a + length b <= length c)%nat -> dot (a ++ b) c = dot a c + dot b (skipn (length a) c).
  Proof.
    revert c. induction a as [|x a IH]; intros c L; cbn [app length skipn].
    - rewrite dot_nil_l. ring.
    - destruct c as [|y c]; [cbn in L; lia|]. cbn [length] in L. cbn [skipn]. rewrite !dot_cons, IH by lia. ring.
  Qed.
  Lemma dot_fsum (a b : list K) : fsum (map2 (fun c p => c * p) b a) = dot a b.
  Proof. rewrite dot_comm. reflexivity. Qed.
  Lemma dotp_expected_ok coeffs np {A} (f g h : A -> K) ts : (np + length ts <= length coeffs)%nat ->
    dotp_expected coeffs np (map f ts, map g ts, map h ts) = Ok (dot (map (fun t => f t * g t * h t) ts) (skipn np coeffs)).
  Proof.
    intro L. unfold dotp_expected. rewrite map_length. destruct ts as [|t0 ts0]; [reflexivity|]. set (ts := t0 :: ts0) in *.
    rewrite (mapM_ok _ (fun i => nth (i + np) coeffs 0 * f (nth i ts t0) * g (nth i ts t0) * h (nth i ts t0))).
    - cbn [bind]. f_equal. unfold dot. f_equal. apply (list_ext _ _ 0).
      + rewrite map_length, seq_length, map2_len, map_length, skipn_length. lia.
      + rewrite map_length, seq_length. intros i Hi. rewrite (nth_map0 _ _ i 0%nat) by (rewrite seq_length; exact Hi). rewrite seq_nth by exact Hi.
        rewrite (map2_nth _ _ _ _ 0 0 0) by (rewrite ?map_length, ?skipn_length; lia). rewrite (nth_map0 _ _ i t0) by exact Hi.
        rewrite skipn_nth. replace (np + i)%nat with (i + np)%nat by lia. cbn [Nat.add]. ring.
    - intros i Hi. apply in_seq in Hi. rewrite !(idx_nth (map _ ts) i 0) by (rewrite map_length; lia). cbn [bind].
      rewrite (idx_nth coeffs _ 0) by lia. cbn [bind]. rewrite !(nth_map0 _ _ i t0) by lia. reflexivity.
  Qed.
End Dot.

Section Batch.
  Context {K : Fld} {G : Mod K} {E : Enc G}.
  Local Open Scope fld_scope.
  Variable H : log E -> K.
  Hypothesis two : (of_nat 2 : K) <> 0.
  Hypothesis three : (of_nat 3 : K) <> 0.
  Add Field Kpb : (fth K).

  Lemma pb_prove_app cs ds a : forall b claims rand dotp (tr : log E),
    pb_prove_loop H cs ds (a ++ b) claims rand dotp tr =
    bind (pb_prove_loop H cs ds a claims rand dotp tr) (fun x => let '(p1, dotp, claims, rand, tr) := x in
      bind (pb_prove_loop H cs ds b claims rand dotp tr) (fun y => let '(p2, dp, cl, rd, t) := y in Ok (p1 ++ p2, dp, cl, rd, t))).
  Proof.
    induction a as [|id a IH]; intros b claims rand dotp tr.
    - cbn [app pb_prove_loop bind]. destruct (pb_prove_loop H cs ds b claims rand dotp tr) as [[[[[p2 dp] cl] rd] t]| |]; reflexivity.
    - cbn [app pb_prove_loop].
      destruct (mapM _ cs) as [par| |]; cbn [bind]; [|reflexivity..].
      destruct (idx par 0) as [f| |]; cbn [bind]; [|reflexivity..].
      destruct (dense_new (eq_evals rand)) as [C| |]; cbn [bind]; [|reflexivity..].
      destruct (Nat.eqb (dlen C) _); [|reflexivity].
      destruct (log_2 (dlen C)) as [nr| |]; cbn [bind]; [|reflexivity..].
      destruct (if Nat.eqb id 0 then _ else _) as [extra| |]; cbn [bind]; [|reflexivity..].
      destruct (challenges H _ _ tr) as [coeffs tr1].
      destruct (prove_cubic_batched H _ _ _ _ _ _ _ _) as [[[[[polys rp] [[pa pb] pc]] [[da db] dw]] t]| |]; cbn [bind]; [|reflexivity..].
      unfold challenge. rewrite IH.
      destruct (pb_prove_loop H cs ds a _ _ _ _) as [[[[[p1 dp1] cl1] rd1] u1]| |]; cbn [bind]; [|reflexivity..].
      destruct (pb_prove_loop H cs ds b _ _ _ _) as [[[[[p2 dp2] cl2] rd2] u2]| |]; reflexivity.
  Qed.
  Lemma pb_verify_app dotp np dv last a : forall b i claims rand cd (tr : log E),
    pb_verify_loop H dotp np dv last (a ++ b) i claims rand cd tr =
    bind (pb_verify_loop H dotp np dv last a i claims rand cd tr) (fun x => let '(claims, cd, rand, tr) := x in
      pb_verify_loop H dotp np dv last b (i + length a) claims rand cd tr).
  Proof.
    induction a as [|pf a IH]; intros b i claims rand cd tr.
    - cbn [app pb_verify_loop bind length]. rewrite Nat.add_0_r. reflexivity.
    - cbn [app pb_verify_loop]. destruct (challenges H _ _ tr) as [coeffs tr1].
      destruct (sc_verify H (by_proof pf) _ i 3 tr1) as [[[cl rp] t]| |]; cbn [bind]; [|reflexivity..].
      destruct (Nat.eqb (length (by_left pf)) np); [|reflexivity]. destruct (Nat.eqb (length (by_right pf)) np); [|reflexivity].
      destruct (Nat.eqb (length rand) _); [|reflexivity].
      destruct (if Nat.eqb i last then dotp_expected _ _ _ else _) as [ex| |]; cbn [bind]; [|reflexivity..].
      destruct (feqb _ _); [|reflexivity]. unfold challenge.
      destruct (if Nat.eqb i last then dotp_claims _ _ _ else _) as [cd'| |]; cbn [bind]; [|reflexivity..].
      rewrite IH. cbn [length]. replace (S i + length a)%nat with (i + S (length a))%nat by lia. reflexivity.
  Qed.

  Lemma batch_core m (Vs : list (list K)) (ts : list (triple K)) rand coeffs (tr : log E) :
    (forall V, In V Vs -> length V = (2 ^ S m)%nat) -> (forall t, In t ts -> tlen m t) -> length rand = m ->
    (length Vs + length ts <= length coeffs)%nat ->
    let claim := dot (map (fun V => mle (map2 fmul (lo V) (hi V)) rand) Vs ++ map (fun t => dot3 (t1 t) (t2 t) (t3 t)) ts) coeffs in
    exists polys r tr', length r = m /\
      prove_cubic_batched H claim m (map (fun V => (dt m (lo V), dt m (hi V))) Vs) (dt m (eq_evals rand))
        (map (fun t => (dt m (t1 t), dt m (t2 t), dt m (t3 t))) ts) coeffs prod3 tr =
        Ok (polys, r, (map (fun V => mle (lo V) r) Vs, map (fun V => mle (hi V) r) Vs, eq_mle rand r),
            (map (fun t => mle (t1 t) r) ts, map (fun t => mle (t2 t) r) ts, map (fun t => mle (t3 t) r) ts), tr') /\
      sc_verify H polys claim m 3 tr =
        Ok (dot (map (fun V => mle (lo V) r * mle (hi V) r * eq_mle rand r) Vs ++ map (fun t => mle (t1 t) r * mle (t2 t) r * mle (t3 t) r) ts) coeffs, r, tr').
  Proof.
    intros LV Lt Lr Lc claim.
    assert (LE : length (eq_evals rand) = (2 ^ m)%nat) by (rewrite eq_evals_length, Lr; reflexivity).
    destruct (dt_ok m _ LE) as (O3 & N3 & L3).
    assert (OV : forall T : list K, length T = (2 ^ m)%nat -> live (dt m T) = T) by (intros T LT; apply (dt_ok m T LT)).
    destruct (api_batched H two three prod3 m (map (fun V => (dt m (lo V), dt m (hi V))) Vs) (dt m (eq_evals rand))
        (map (fun t => (dt m (t1 t), dt m (t2 t), dt m (t3 t))) ts) coeffs claim tr prod3_line (conj O3 N3)) as (polys & r & tr1 & Lrp & EP & EV).
    - intros A B I. apply in_map_iff in I. destruct I as (V & X & I). injection X as <- <-. destruct (half_len _ _ (LV V I)) as [P Q].
      destruct (dt_ok m _ P) as (a & b & _). destruct (dt_ok m _ Q) as (a' & b' & _). repeat split; assumption || apply a || apply a'.
    - intros A B C I. apply in_map_iff in I. destruct I as (t & X & I). injection X as <- <- <-. destruct (Lt t I) as (P & Q & R).
      destruct (dt_ok m _ P) as (a & b & _). destruct (dt_ok m _ Q) as (a' & b' & _). destruct (dt_ok m _ R) as (a'' & b'' & _).
      split; [split; assumption|split; split; assumption].
    - rewrite !map_length. exact Lc.
    - unfold claim. f_equal. rewrite !map_map. f_equal.
      + apply map_ext_in. intros V I. destruct (half_len _ _ (LV V I)) as [P Q]. rewrite L3, !OV by assumption. apply mle_level; [exact (LV V I)|exact Lr].
      + apply map_ext_in. intros t I. destruct (Lt t I) as (P & Q & R). rewrite !OV by assumption. unfold dot3. rewrite P. reflexivity.
    - exists polys, r, tr1. split; [exact Lrp|].
      assert (ME : forall A (sel : A -> list K) l, (forall a, In a l -> length (sel a) = (2 ^ m)%nat) -> map (fun x => mle (live (dt m (sel x))) r) l = map (fun x => mle (sel x) r) l).
      { intros A sel l Hl. apply map_ext_in. intros a I. rewrite OV by (apply Hl, I). reflexivity. }
      split.
      + rewrite EP. rewrite L3, !map_map. cbn [fst snd].
        rewrite (ME _ lo Vs), (ME _ hi Vs), (ME _ t1 ts), (ME _ t2 ts), (ME _ t3 ts); [reflexivity|..]; intros a I;
          first [apply (half_len a m (LV a I))|apply (Lt a I)].
      + rewrite EV. do 3 f_equal. rewrite L3, !map_map. f_equal. f_equal; apply map_ext_in; intros a I.
        * destruct (half_len a m (LV a I)) as [P Q]. rewrite !OV by assumption. reflexivity.
        * destruct (Lt a I) as (P & Q & R). rewrite !OV by assumption. reflexivity.
  Qed.

  (** the halves of the layers number k *)
  Lemma par_ok n Zs (cs : list (pcircuit K)) k : (k < n)%nat -> Forall2 (circ_of n) Zs cs ->
    mapM (fun c => bind (idx (pc_left c) k) (fun l => bind (idx (pc_right c) k) (fun r => Ok (l, r)))) cs =
    Ok (map (fun V => (dt (n - 1 - k) (lo V), dt (n - 1 - k) (hi V))) (map (level k) Zs)).
  Proof.
    intros Hk F. induction F as [|Z c Zs cs C F IH]; [reflexivity|]. cbn [mapM map]. destruct C as (C1 & C2 & C3). destruct (C3 k Hk) as [X Y].
    rewrite X, Y. cbn [bind]. rewrite IH. reflexivity.
  Qed.
  Lemma expected_ok (ls rs coeffs : list K) e {A} (f g : A -> K) (Vs : list A) : ls = map f Vs -> rs = map g Vs ->
    fsum (map2 (fun c p => c * p) coeffs (map2 (fun l r => l * r * e) ls rs)) = dot (map (fun V => f V * g V * e) Vs) coeffs.
  Proof. intros -> ->. rewrite map2_map_same. apply dot_fsum. Qed.
  Lemma condense_ok x r (Vs : list (list K)) : (forall V, In V Vs -> length V = (2 ^ S (length r))%nat) ->
    condense x (map (fun V => mle (lo V) r) Vs) (map (fun V => mle (hi V) r) Vs) = map (fun V => mle V (x :: r)) Vs.
  Proof. intro L. unfold condense. rewrite map2_map_same. apply map_ext_in. intros V I. symmetry. apply mle_lo_hi, L, I. Qed.
  Lemma feqb_refl (x : K) : feqb x x = true.
  Proof. destruct (feqb_spec K x x); congruence. Qed.
  Lemma levels_len n Zs k : (forall Z, In Z Zs -> length Z = (2 ^ n)%nat) -> (k < n)%nat ->
    forall V : list K, In V (map (level k) Zs) -> length V = (2 ^ S (n - 1 - k))%nat.
  Proof. intros L Hk V I. apply in_map_iff in I. destruct I as (Z & <- & I). apply level_len. rewrite (L Z I). f_equal. lia. Qed.

  Lemma pb_step n Z0 Zs0 (cs : list (pcircuit K)) ds k rand dotp0 (tr : log E) : let Zs := Z0 :: Zs0 in
    (forall Z, In Z Zs -> length Z = (2 ^ n)%nat) -> Forall2 (circ_of n) Zs cs -> (0 < k < n)%nat -> length rand = (n - 1 - k)%nat ->
    exists pf x r tr', length r = (n - 1 - k)%nat /\
      pb_prove_loop H cs ds [k] (map (fun Z => mle (level (S k) Z) rand) Zs) rand dotp0 tr = Ok ([pf], dotp0, map (fun Z => mle (level k Z) (x :: r)) Zs, x :: r, tr') /\
      forall dotp dv cd, pb_verify_loop H dotp (length Zs) dv (n - 1) [pf] (n - 1 - k) (map (fun Z => mle (level (S k) Z) rand) Zs) rand cd tr =
        Ok (map (fun Z => mle (level k Z) (x :: r)) Zs, cd, x :: r, tr').
  Proof.
    intros Zs LZ F Hk Lr. pose proof (levels_len n Zs k LZ ltac:(lia)) as LV. pose proof (par_ok n Zs cs k ltac:(lia) F) as Par.
    set (m := (n - 1 - k)%nat) in *. set (Vs := map (level k) Zs) in *.
    assert (LE : length (eq_evals rand) = (2 ^ m)%nat) by (rewrite eq_evals_length, Lr; reflexivity).
    assert (Ecl : map (fun Z => mle (level (S k) Z) rand) Zs = map (fun V => mle (map2 fmul (lo V) (hi V)) rand) Vs) by (unfold Vs; rewrite map_map; reflexivity).
    assert (Eout : forall q, map (fun Z => mle (level k Z) q) Zs = map (fun V => mle V q) Vs) by (intro q; unfold Vs; rewrite map_map; reflexivity).
    assert (Eidx : idx (map (fun V => (dt m (lo V), dt m (hi V))) Vs) 0 = Ok (dt m (lo (level k Z0)), dt m (hi (level k Z0)))) by reflexivity.
    rewrite Ecl. cbn [pb_prove_loop]. rewrite Par. cbn [bind]. rewrite Eidx. cbn [bind fst snd dlen dt].
    rewrite (proj1 (dense_new_ok K _ m LE)). cbn [bind dlen].
    replace ((2 ^ m + 2 ^ m) / 2)%nat with (2 ^ m)%nat by (apply Nat.div_unique with 0%nat; lia). rewrite Nat.eqb_refl, log_2_pow. cbn [bind].
    destruct (Nat.eqb_spec k 0); [lia|]. cbn [bind]. rewrite app_nil_r, map_length.
    assert (LVs : length Vs = length Zs) by (unfold Vs; apply map_length).
    destruct (challenges H "rand_coeffs_next_layer" (length Vs) tr) as [coeffs tr1] eqn:EC.
    assert (Lco : length coeffs = length Vs) by (pose proof (challenges_length H "rand_coeffs_next_layer" (length Vs) tr) as Q; rewrite EC in Q; exact Q).
    destruct (batch_core m Vs [] rand coeffs tr1 LV ltac:(intros ? []) Lr ltac:(rewrite Lco, Nat.add_comm; apply le_n)) as (polys & r & tr2 & Lrp & EP & EV).
    cbn [map] in EP, EV. rewrite !app_nil_r in EP, EV. change (MkDense m (2 ^ m) (eq_evals rand)) with (dt m (eq_evals rand)). rewrite EP. cbn [bind]. unfold challenge.
    set (x := H _). rewrite condense_ok by (rewrite Lrp; exact LV). cbn [bind].
    exists (MkBLayer polys (map (fun V => mle (lo V) r) Vs) (map (fun V => mle (hi V) r) Vs)), x, r. eexists. split; [exact Lrp|].
    rewrite Eout. split; [reflexivity|]. intros dotp dv cd.
    cbn [pb_verify_loop by_proof by_left by_right]. destruct (Nat.eqb_spec m (n - 1)); [unfold m in *; lia|].
    rewrite map_length, EC, EV. cbn [bind]. rewrite !map_length, LVs, Nat.eqb_refl, Lr, Lrp, Nat.eqb_refl.
    rewrite (eq_points_mle rand r) by congruence. rewrite (expected_ok _ _ coeffs _ _ _ Vs eq_refl eq_refl).
    match goal with |- context [feqb ?a ?b] => assert (X : a = b) by (rewrite app_nil_r; ring); rewrite X, feqb_refl end.
    unfold challenge. cbn [bind]. fold x. rewrite (app_nil_r cd), condense_ok by (rewrite Lrp; exact LV). reflexivity.
  Qed.

  Lemma cut_len m (Ds : list (triple K)) : (forall t, In t Ds -> tlen (S m) t) -> forall t, In t (cut Ds) -> tlen m t.
  Proof.
    intros L t I. apply in_flat_map in I. destruct I as (D & I & [<-|[<-|[]]]); destruct (L D I) as (A & B & C);
      split; [|split| |split]; cbn; (apply half_len; assumption).
  Qed.
  Lemma cut_length (Ds : list (triple K)) : length (cut Ds) = (length Ds * 2)%nat.
  Proof. induction Ds as [|D Ds IH]; [reflexivity|]. change (cut (D :: Ds)) with (tlo D :: thi D :: cut Ds). cbn [length]. rewrite IH. reflexivity. Qed.
  Lemma idx_pairs {A B} (f g : A -> B) d l : forall i, (i < length l)%nat ->
    idx (flat_map (fun a => [f a; g a]) l) (2 * i) = Ok (f (nth i l d)) /\ idx (flat_map (fun a => [f a; g a]) l) (2 * i + 1) = Ok (g (nth i l d)).
  Proof.
    induction l as [|a l IH]; intros i Hi; [cbn in Hi; lia|]. destruct i as [|i]; [split; reflexivity|]. cbn [length] in Hi.
    replace (2 * S i)%nat with (S (S (2 * i))) by lia. replace (S (S (2 * i)) + 1)%nat with (S (S (2 * i + 1))) by lia. apply IH. lia.
  Qed.
  Lemma map_cut {B} (f : triple K -> B) (Ds : list (triple K)) : map f (cut Ds) = flat_map (fun t => [f (tlo t); f (thi t)]) Ds.
  Proof. unfold cut. induction Ds as [|D Ds IH]; [reflexivity|]. cbn. rewrite IH. reflexivity. Qed.
  Lemma dotp_claims_ok x r (Ds : list (triple K)) : (forall t, In t Ds -> tlen (S (length r)) t) ->
    dotp_claims x (length (cut Ds)) (map (fun t => mle (t1 t) r) (cut Ds), map (fun t => mle (t2 t) r) (cut Ds), map (fun t => mle (t3 t) r) (cut Ds)) =
    Ok (flat_map (fun t => [mle (t1 t) (x :: r); mle (t2 t) (x :: r); mle (t3 t) (x :: r)]) Ds).
  Proof.
    intro L. unfold dotp_claims. rewrite cut_length, Nat.div_mul by lia. rewrite !map_cut.
    rewrite (mapM_ok _ (fun i => let t := nth i Ds ([], [], []) in [mle (t1 t) (x :: r); mle (t2 t) (x :: r); mle (t3 t) (x :: r)])).
    - cbn [bind]. f_equal. rewrite flat_map_concat_map. f_equal.
      transitivity (map (fun t => [mle (t1 t) (x :: r); mle (t2 t) (x :: r); mle (t3 t) (x :: r)]) (tab (length Ds) (fun i => nth i Ds ([], [], []))));
        [unfold tab; rewrite map_map; reflexivity|rewrite tab_nth; reflexivity].
    - intros i Hi. apply in_seq in Hi. destruct (L (nth i Ds ([], [], [])) ltac:(apply nth_In; lia)) as (A & B & C).
      destruct (idx_pairs (fun t => mle (t1 (tlo t)) r) (fun t => mle (t1 (thi t)) r) ([], [], []) Ds i ltac:(lia)) as [X1 Y1]. rewrite X1, Y1. cbn [bind].
      destruct (idx_pairs (fun t => mle (t2 (tlo t)) r) (fun t => mle (t2 (thi t)) r) ([], [], []) Ds i ltac:(lia)) as [X2 Y2]. rewrite X2, Y2. cbn [bind].
      destruct (idx_pairs (fun t => mle (t3 (tlo t)) r) (fun t => mle (t3 (thi t)) r) ([], [], []) Ds i ltac:(lia)) as [X3 Y3]. rewrite X3, Y3. cbn [bind].
      rewrite !mle_lo_hi by assumption. reflexivity.
  Qed.

  Lemma pb_last m Z0 Zs0 (cs : list (pcircuit K)) Ds rand dotp0 (tr : log E) : let Zs := Z0 :: Zs0 in let ts := cut Ds in
    (forall Z, In Z Zs -> length Z = (2 ^ S m)%nat) -> Forall2 (circ_of (S m)) Zs cs -> (forall t, In t Ds -> tlen (S m) t) -> length rand = m ->
    exists pf x r tr' dotp, length r = m /\
      pb_prove_loop H cs (map (dc_of m) ts) [0%nat] (map (fun Z => mle (level 1 Z) rand) Zs) rand dotp0 tr = Ok ([pf], dotp, map (fun Z => mle Z (x :: r)) Zs, x :: r, tr') /\
      forall cd, pb_verify_loop H dotp (length Zs) (map (fun t => dot3 (t1 t) (t2 t) (t3 t)) ts) m [pf] m (map (fun Z => mle (level 1 Z) rand) Zs) rand cd tr =
        Ok (map (fun Z => mle Z (x :: r)) Zs, cd ++ flat_map (fun t => [mle (t1 t) (x :: r); mle (t2 t) (x :: r); mle (t3 t) (x :: r)]) Ds, x :: r, tr').
  Proof.
    intros Zs ts LZ F LD Lr. pose proof (cut_len m Ds LD) as Lts. fold ts in Lts. pose proof (par_ok (S m) Zs cs 0 ltac:(lia) F) as Par.
    replace (S m - 1 - 0)%nat with m in Par by lia. cbn [level] in Par. rewrite map_id in Par.
    assert (LE : length (eq_evals rand) = (2 ^ m)%nat) by (rewrite eq_evals_length, Lr; reflexivity).
    assert (Eidx : idx (map (fun V => (dt m (lo V), dt m (hi V))) Zs) 0 = Ok (dt m (lo Z0), dt m (hi Z0))) by reflexivity.
    change (map (fun Z => mle (level 1 Z) rand) Zs) with (map (fun Z => mle (map2 fmul (lo Z) (hi Z)) rand) Zs).
    cbn [pb_prove_loop]. rewrite Par. cbn [bind]. rewrite Eidx. cbn [bind fst snd dlen dt].
    rewrite (proj1 (dense_new_ok K _ m LE)). cbn [bind dlen].
    replace ((2 ^ m + 2 ^ m) / 2)%nat with (2 ^ m)%nat by (apply Nat.div_unique with 0%nat; lia). rewrite Nat.eqb_refl, log_2_pow. cbn [bind Nat.eqb].
    assert (Ex : mapM (fun d : dcircuit K => bind (dc_evaluate d) (fun v => if Nat.eqb (2 ^ m) (dlen (dc_left d)) then
        if Nat.eqb (2 ^ m) (dlen (dc_right d)) then if Nat.eqb (2 ^ m) (dlen (dc_weight d)) then Ok v else Panic else Panic else Panic)) (map (dc_of m) ts) =
        Ok (map (fun t => dot3 (t1 t) (t2 t) (t3 t)) ts)).
    { clear -Lts. induction ts as [|t ts IH]; [reflexivity|]. cbn [map mapM]. rewrite dc_evaluate_of by (apply Lts; left; reflexivity). cbn [bind].
      unfold dc_of at 1 2 3. cbn [dc_left dc_right dc_weight dt dlen]. rewrite Nat.eqb_refl. cbn [bind]. rewrite IH by (intros; apply Lts; right; assumption). reflexivity. }
    rewrite Ex. cbn [bind]. rewrite app_length, !map_length.
    destruct (challenges H "rand_coeffs_next_layer" (length Zs + length ts) tr) as [coeffs tr1] eqn:EC.
    assert (Lco : length coeffs = (length Zs + length ts)%nat) by (pose proof (challenges_length H "rand_coeffs_next_layer" (length Zs + length ts) tr) as Q; rewrite EC in Q; exact Q).
    destruct (batch_core m Zs ts rand coeffs tr1 LZ Lts Lr ltac:(lia)) as (polys & r & tr2 & Lrp & EP & EV).
    rewrite map_map. unfold dc_of. cbn [dc_left dc_right dc_weight]. change (MkDense m (2 ^ m) (eq_evals rand)) with (dt m (eq_evals rand)). rewrite EP. cbn [bind]. unfold challenge.
    set (x := H _). rewrite condense_ok by (rewrite Lrp; exact LZ). cbn [bind].
    exists (MkBLayer polys (map (fun V => mle (lo V) r) Zs) (map (fun V => mle (hi V) r) Zs)), x, r. do 2 eexists. split; [exact Lrp|].
    split; [reflexivity|]. intro cd.
    cbn [pb_verify_loop by_proof by_left by_right]. rewrite Nat.eqb_refl, app_length, !map_length, EC, EV. cbn [bind]. rewrite Nat.eqb_refl, Lr, Lrp, Nat.eqb_refl.
    rewrite (eq_points_mle rand r) by congruence. rewrite (expected_ok _ _ coeffs _ _ _ Zs eq_refl eq_refl).
    rewrite dotp_expected_ok by lia. cbn [bind fst snd]. rewrite (dot_split (map _ Zs) (map _ ts) coeffs) by (rewrite !map_length; lia). rewrite map_length, feqb_refl.
    unfold challenge. fold x. unfold ts. rewrite dotp_claims_ok by (rewrite Lrp; exact LD). cbn [bind].
    rewrite condense_ok by (rewrite Lrp; exact LZ). reflexivity.
  Qed.

  Lemma pb_complete_loop n Z0 Zs0 (cs : list (pcircuit K)) ds (tr : log E) : let Zs := Z0 :: Zs0 in
    (forall Z, In Z Zs -> length Z = (2 ^ S n)%nat) -> Forall2 (circ_of (S n)) Zs cs -> forall m, (m <= n)%nat ->
    exists pfs rand tr', length rand = m /\ length pfs = m /\
      pb_prove_loop H cs ds (rev (seq (S n - m) m)) (map fprod Zs) [] ([], [], []) tr = Ok (pfs, ([], [], []), map (fun Z => mle (level (S n - m) Z) rand) Zs, rand, tr') /\
      forall dotp dv, pb_verify_loop H dotp (length Zs) dv n pfs 0 (map fprod Zs) [] [] tr = Ok (map (fun Z => mle (level (S n - m) Z) rand) Zs, [], rand, tr').
  Proof.
    intros Zs LZ F. induction m; intro Hm.
    - exists [], [], tr. rewrite Nat.sub_0_r. cbn [seq rev pb_prove_loop pb_verify_loop].
      replace (map (fun Z => mle (level (S n) Z) []) Zs) with (map fprod Zs); [repeat split|].
      apply map_ext_in. intros Z I. rewrite (level_top (S n) Z (LZ Z I)), mle_nil. reflexivity.
    - destruct IHm as (pfs & rand & tr1 & L1 & L2 & EP & EV); [lia|].
      destruct (pb_step (S n) Z0 Zs0 cs ds (S n - S m) rand ([], [], []) tr1 LZ F ltac:(lia) ltac:(lia)) as (pf & x & r & tr2 & Lr & SP & SV).
      fold Zs in SP, SV. replace (S (S n - S m)) with (S n - m)%nat in * by lia.
      exists (pfs ++ [pf]), (x :: r), tr2. split; [cbn [length]; lia|]. split; [rewrite app_length; cbn [length]; lia|].
      replace (rev (seq (S n - S m) (S m))) with (rev (seq (S n - m) m) ++ [(S n - S m)%nat]) by (rewrite rev_seq_S; repeat f_equal; lia).
      split.
      + rewrite pb_prove_app, EP. cbn [bind]. rewrite SP. reflexivity.
      + intros dotp dv. rewrite pb_verify_app, EV. cbn [bind]. replace (0 + length pfs)%nat with (S n - 1 - (S n - S m))%nat by lia.
        replace n with (S n - 1)%nat at 1 by lia. apply SV.
  Qed.

  Lemma pb_complete n Z0 Zs0 (cs : list (pcircuit K)) Ds (tr : log E) : let Zs := Z0 :: Zs0 in let ts := cut Ds in
    (forall Z, In Z Zs -> length Z = (2 ^ S n)%nat) -> Forall2 (circ_of (S n)) Zs cs -> (forall t, In t Ds -> tlen (S n) t) ->
    exists pf rand tr', length rand = S n /\
      pcb_prove H cs (map (dc_of n) ts) tr = Ok (pf, rand, tr') /\
      pcb_verify H pf (map fprod Zs) (map (fun t => dot3 (t1 t) (t2 t) (t3 t)) ts) (2 ^ S n) tr =
        Ok (map (fun Z => mle Z rand) Zs, flat_map (fun t => [mle (t1 t) rand; mle (t2 t) rand; mle (t3 t) rand]) Ds, rand, tr').
  Proof.
    intros Zs ts LZ F LD. destruct (pb_complete_loop n Z0 Zs0 cs (map (dc_of n) ts) tr LZ F n (le_n _)) as (pfs & rand & tr1 & L1 & L2 & EP & EV).
    fold Zs in EP, EV. replace (S n - n)%nat with 1%nat in * by lia.
    destruct (pb_last n Z0 Zs0 cs Ds rand ([], [], []) tr1 LZ F LD L1) as (pf & x & r & tr2 & dotp & Lr & SP & SV).
    fold Zs ts in SP, SV. exists (MkBProof (pfs ++ [pf]) dotp), (x :: r), tr2. split; [cbn [length]; lia|]. split.
    - assert (EC : mapM pc_evaluate cs = Ok (map fprod Zs)).
      { clear -LZ F. induction F as [|Z c Zs cs C F IH]; [reflexivity|]. cbn [mapM map]. rewrite (pc_evaluate_ok n Z c (LZ Z (or_introl eq_refl)) C). cbn [bind].
        rewrite IH by (intros Y I; apply LZ; right; exact I). reflexivity. }
      unfold pcb_prove. destruct cs as [|c cs']; [inversion F|]. rewrite EC. cbn [bind].
      assert (Lc : length (pc_left c) = S n) by (inversion F as [|? ? ? ? C]; apply C). rewrite Lc.
      rewrite rev_seq_S, pb_prove_app, EP. cbn [bind]. rewrite SP. reflexivity.
    - unfold pcb_verify. rewrite log_2_pow. cbn [bind bp_layers bp_dotp]. rewrite app_length, L2. cbn [length]. rewrite Nat.add_1_r, Nat.eqb_refl, map_length.
      rewrite pb_verify_app. replace (S n - 1)%nat with n by lia. rewrite EV. cbn [bind]. rewrite L2. apply SV.
  Qed.

  (** from dense tables *)
  Definition live3 (D : dcircuit K) : triple K := (live (dc_left D), live (dc_right D), live (dc_weight D)).
  Definition dok (n : nat) (d : dense K) : Prop := dense_ok d /\ dnum_vars d = n.
  Lemma dense_split_half (d : dense K) n : dok (S n) d -> dense_split d (2 ^ n) = Ok (dt n (lo (live d)), dt n (hi (live d))).
  Proof.
    intros [O N]. pose proof (live_length K d O) as LL. destruct O as [O1 O2]. rewrite N in O1.
    assert (P : (2 ^ S n = 2 ^ n + 2 ^ n)%nat) by apply pow2_S. assert (Pp := pow2_pos n).
    unfold dense_split. rewrite O1. destruct (Nat.ltb_spec (2 ^ n) (2 ^ S n)); [|lia].
    destruct (Nat.leb_spec (2 * 2 ^ n) (length (dZ d))); [|lia].
    assert (LV : length (live d) = (2 ^ S n)%nat) by congruence. destruct (half_len _ _ LV) as [A B].
    assert (E1 : firstn (2 ^ n) (dZ d) = lo (live d)).
    { unfold lo. rewrite LV, pow_half. unfold live. rewrite O1, firstn_firstn. f_equal. lia. }
    assert (E2 : firstn (2 ^ n) (skipn (2 ^ n) (dZ d)) = hi (live d)).
    { unfold hi. rewrite LV, pow_half. unfold live. rewrite O1, skipn_firstn_comm. f_equal. lia. }
    rewrite E1, E2, (proj1 (dense_new_ok K _ n A)), (proj1 (dense_new_ok K _ n B)). reflexivity.
  Qed.
  Lemma dok_len n d : dok n d -> length (live d) = (2 ^ n)%nat /\ dlen d = (2 ^ n)%nat.
  Proof. intros [O N]. rewrite (live_length K d O). destruct O as [O1 _]. rewrite O1, N. split; reflexivity. Qed.
  Lemma dc_split_ok n (D : dcircuit K) : dok (S n) (dc_left D) -> dok (S n) (dc_right D) -> dok (S n) (dc_weight D) ->
    dc_split D = Ok (dc_of n (tlo (live3 D)), dc_of n (thi (live3 D))).
  Proof.
    intros A B C. unfold dc_split. destruct (dok_len _ _ A) as [_ LA]. destruct (dok_len _ _ B) as [_ LB]. destruct (dok_len _ _ C) as [_ LC].
    rewrite LA, pow_half. replace (2 ^ n * 2)%nat with (2 ^ S n)%nat by (rewrite pow2_S; lia). rewrite Nat.eqb_refl.
    rewrite (dense_split_half _ n A), (dense_split_half _ n B), (dense_split_half _ n C). reflexivity.
  Qed.
  Lemma dc_evaluate_ok n (D : dcircuit K) : dok n (dc_left D) -> dok n (dc_right D) -> dok n (dc_weight D) ->
    dc_evaluate D = Ok (dot3 (live (dc_left D)) (live (dc_right D)) (live (dc_weight D))).
  Proof.
    intros [A NA] [B NB] [C NC]. unfold dc_evaluate, dot3.
    rewrite (mapM_ok _ (fun i => nth i (live (dc_left D)) 0 * nth i (live (dc_right D)) 0 * nth i (live (dc_weight D)) 0)).
    - rewrite (live_length K _ A). reflexivity.
    - destruct A as [A1 A2], B as [B1 B2], C as [C1 C2]. intros i Hi. apply in_seq in Hi. rewrite A1, NA in Hi. unfold dense_index.
      rewrite NA in A1. rewrite NB in B1. rewrite NC in C1.
      rewrite !(idx_nth _ _ 0) by lia. cbn [bind]. unfold live. rewrite !firstn_nth by lia. reflexivity.
  Qed.
  Lemma dot3_halves n (a b c : list K) : length a = (2 ^ S n)%nat -> length b = (2 ^ S n)%nat -> length c = (2 ^ S n)%nat ->
    dot3 (lo a) (lo b) (lo c) + dot3 (hi a) (hi b) (hi c) = dot3 a b c.
  Proof.
    intros A B C. destruct (half_len _ _ A) as [A1 A2]. destruct (half_len _ _ B) as [B1 B2]. destruct (half_len _ _ C) as [C1 C2].
    unfold dot3. rewrite A, A1, A2, pow2_S, sumn_add. f_equal; apply sumn_ext; intros i Hi.
    - unfold lo. rewrite A, B, C, pow_half, !firstn_nth by exact Hi. reflexivity.
    - unfold hi. rewrite A, B, C, pow_half, !skipn_nth. reflexivity.
  Qed.

  Lemma pcb_complete n (ps : list (dense K)) (Ds : list (dcircuit K)) (tr : log E) : ps <> [] ->
    (forall d, In d ps -> dok (S n) d) -> (forall D, In D Ds -> dok (S n) (dc_left D) /\ dok (S n) (dc_right D) /\ dok (S n) (dc_weight D)) ->
    exists cs hs evs pf rand tr',
      mapM pc_new ps = Ok cs /\ mapM pc_evaluate cs = Ok (map (fun d => fprod (live d)) ps) /\ mapM dc_split Ds = Ok hs /\
      let ds := flat_map (fun h => [fst h; snd h]) hs in
      mapM dc_evaluate ds = Ok evs /\ length rand = S n /\
      pcb_prove H cs ds tr = Ok (pf, rand, tr') /\
      pcb_verify H pf (map (fun d => fprod (live d)) ps) evs (2 ^ S n) tr =
        Ok (map (fun d => mle (live d) rand) ps,
            flat_map (fun D => [mle (live (dc_left D)) rand; mle (live (dc_right D)) rand; mle (live (dc_weight D)) rand]) Ds, rand, tr').
  Proof.
    intros NE Op OD.
    assert (X : exists cs, mapM pc_new ps = Ok cs /\ Forall2 (circ_of (S n)) (map live ps) cs).
    { clear NE. induction ps as [|p ps IH]; [exists []; split; [reflexivity|constructor]|].
      destruct (Op p (or_introl eq_refl)) as [O N]. destruct (pc_new_ok p n O N) as (c & Ec & C). destruct IH as (cs & Es & Cs); [intros; apply Op; right; assumption|].
      exists (c :: cs). cbn [mapM map]. rewrite Ec. cbn [bind]. rewrite Es. split; [reflexivity|constructor; assumption]. }
    destruct X as (cs & Es & F). assert (LZ : forall Z, In Z (map live ps) -> length Z = (2 ^ S n)%nat).
    { intros Z I. apply in_map_iff in I. destruct I as (d & <- & I). apply dok_len, Op, I. }
    assert (LD : forall t, In t (map live3 Ds) -> tlen (S n) t).
    { intros t I. apply in_map_iff in I. destruct I as (D & <- & I). destruct (OD D I) as (A & B & C). split; [|split]; apply dok_len; assumption. }
    assert (EH : mapM dc_split Ds = Ok (map (fun D => (dc_of n (tlo (live3 D)), dc_of n (thi (live3 D)))) Ds)).
    { apply mapM_ok. intros D I. destruct (OD D I) as (A & B & C). apply dc_split_ok; assumption. }
    assert (Eds : flat_map (fun h => [fst h; snd h]) (map (fun D => (dc_of n (tlo (live3 D)), dc_of n (thi (live3 D)))) Ds) = map (dc_of n) (cut (map live3 Ds))).
    { clear. induction Ds as [|D Ds IH]; [reflexivity|]. cbn. rewrite IH. reflexivity. }
    assert (EE : mapM dc_evaluate (map (dc_of n) (cut (map live3 Ds))) = Ok (map (fun t => dot3 (t1 t) (t2 t) (t3 t)) (cut (map live3 Ds)))).
    { pose proof (cut_len n _ LD) as LC. clear -LC. induction (cut (map live3 Ds)) as [|t l IH]; [reflexivity|]. cbn [map mapM].
      rewrite dc_evaluate_of by (apply LC; left; reflexivity). cbn [bind]. rewrite IH by (intros; apply LC; right; assumption). reflexivity. }
    assert (EC : mapM pc_evaluate cs = Ok (map (fun d => fprod (live d)) ps)).
    { rewrite <- (map_map live fprod). clear -LZ F. induction F as [|Z c Zs cs C F IH]; [reflexivity|]. cbn [mapM map]. rewrite (pc_evaluate_ok n Z c (LZ Z (or_introl eq_refl)) C). cbn [bind].
      rewrite IH by (intros Y I; apply LZ; right; exact I). reflexivity. }
    destruct ps as [|p ps']; [congruence|]. cbn [map] in LZ, F.
    destruct (pb_complete n (live p) (map live ps') cs (map live3 Ds) tr LZ F LD) as (pf & rand & tr' & Lr & EP & EV).
    exists cs, (map (fun D => (dc_of n (tlo (live3 D)), dc_of n (thi (live3 D)))) Ds), (map (fun t => dot3 (t1 t) (t2 t) (t3 t)) (cut (map live3 Ds))), pf, rand, tr'.
    split; [exact Es|]. split; [exact EC|]. split; [exact EH|]. cbn zeta. rewrite Eds. split; [exact EE|]. split; [exact Lr|]. split; [exact EP|].
    rewrite <- (map_map live fprod), <- (map_map live (fun Z => mle Z rand)). etransitivity; [exact EV|]. do 4 f_equal.
    rewrite !flat_map_concat_map, map_map. reflexivity.
  Qed.
End Batch.
