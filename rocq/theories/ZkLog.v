From Coq Require Import String List Arith Bool Lia Field.
From Verif Require Import Base ListAux Field Vec MathModel PolyModel PolySpec PolyProofs CommitModel SigmaModel CommitSpec CommitProofs SigmaProofs BulletProofs LogProofs ZkSpec ZkProofs.
Import ListNotations.

Section Cross.
  Context {K : Fld} {G : Mod K} {E : Enc G}.
  Variable H : log E -> K.
  Add Field Kzl : (fth K).
  Local Open Scope fld_scope.
  Local Notation cmp := (compress E).

  (** the part of each round's pair of points that does not come from the blinds *)
  Fixpoint cross (k : nat) (Q : G) (Gv : list G) (a b us : list K) : list (G * G) :=
    match k, us with
    | S k', u :: us' =>
        let n := (2 ^ k')%nat in
        let aL := firstn n a in let aR := skipn n a in let bL := firstn n b in let bR := skipn n b in let GL := firstn n Gv in let GR := skipn n Gv in
        (gadd (lincomb aL GR) (gmul (dot aL bR) Q), gadd (lincomb aR GL) (gmul (dot aR bL) Q)) ::
        cross k' Q (map2 (fun l r => gadd (gmul (finv u) l) (gmul u r)) GL GR) (map2 (fun l r => l * u + finv u * r) aL aR) (map2 (fun l r => l * finv u + u * r) bL bR) us'
    | _, _ => []
    end.
  Fixpoint fold_a (k : nat) (a us : list K) : K :=
    match k, us with
    | S k', u :: us' => let n := (2 ^ k')%nat in fold_a k' (map2 (fun l r => l * u + finv u * r) (firstn n a) (skipn n a)) us'
    | _, _ => nth 0 a 0
    end.
  Fixpoint fold_bl (us : list K) (bl : list (K * K)) (acc : K) : K :=
    match us, bl with
    | u :: us', b :: bl' => fold_bl us' bl' (acc + fst b * u * u + snd b * finv u * finv u)
    | _, _ => acc
    end.
  Lemma cross_length k Q : forall Gv a b us, length us = k -> length (cross k Q Gv a b us) = k.
  Proof. induction k as [|k IH]; intros Gv a b [|u us] L; try discriminate L; [reflexivity|]. cbn [cross length]. rewrite IH; [reflexivity|]. now injection L. Qed.
  Lemma replies_point s P (tr : log E) : replies H (app_point s P tr) = replies H tr. Proof. reflexivity. Qed.

  Lemma loop_cross (Q h : G) : forall k Gv a b blind blinds tr r,
    length Gv = (2 ^ k)%nat -> length a = (2 ^ k)%nat -> length b = (2 ^ k)%nat ->
    bullet_loop (E:=E) H k Q h Gv a b blind blinds tr = Ok r ->
    exists us, length us = k /\ replies H (br_tr r) = replies H tr ++ us /\
      br_L r = map2 (fun P bl => cmp (gadd P (gmul bl h))) (map fst (cross k Q Gv a b us)) (map fst blinds) /\
      br_R r = map2 (fun P bl => cmp (gadd P (gmul bl h))) (map snd (cross k Q Gv a b us)) (map snd blinds) /\
      br_a r = fold_a k a us /\ br_blind r = fold_bl us blinds blind.
  Proof.
    induction k as [|k IH]; intros Gv a b blind blinds tr r LG La Lb Hr; cbn [bullet_loop] in Hr.
    - destruct a as [|a0 [|]]; try discriminate La. destruct b as [|b0 [|]]; try discriminate Lb.
      destruct Gv as [|G0 [|]]; try discriminate LG. rewrite !idx_0 in Hr. cbn [bind] in Hr. injection Hr as <-.
      exists []. cbn [br_L br_R br_a br_b br_G br_blind br_tr length cross map map2 fold_a nth fold_bl]. rewrite app_nil_r. repeat split.
    - change (pow2 k) with (2 ^ k)%nat in Hr. rewrite pow2_S in LG, La, Lb. remember (2 ^ k)%nat as n eqn:En.
      set (aL := firstn n a) in *. set (aR := skipn n a) in *. set (bL := firstn n b) in *. set (bR := skipn n b) in *.
      set (GL := firstn n Gv) in *. set (GR := skipn n Gv) in *.
      assert (LaL : length aL = n) by (apply firstn_length_le; lia). assert (LaR : length aR = n) by (unfold aR; rewrite skipn_length; lia).
      assert (LbL : length bL = n) by (apply firstn_length_le; lia). assert (LbR : length bR = n) by (unfold bR; rewrite skipn_length; lia).
      assert (LGL : length GL = n) by (apply firstn_length_le; lia). assert (LGR : length GR = n) by (unfold GR; rewrite skipn_length; lia).
      unfold inner_product in Hr. rewrite LaL, LbR, LaR, LbL, Nat.eqb_refl in Hr. cbn [bind] in Hr.
      destruct blinds as [|[blL blR] blinds]; [discriminate Hr|].
      rewrite !msm_ok in Hr by (rewrite !app_length; cbn [length]; lia). cbn [bind] in Hr.
      rewrite !lincomb_app in Hr by (congruence || reflexivity). cbn [lincomb] in Hr.
      match type of Hr with context [app_point "R" (cmp ?R) (app_point "L" (cmp ?L) _)] => set (Rp := R) in *; set (Lp := L) in * end.
      assert (EL : Lp = gadd (gadd (lincomb aL GR) (gmul (dot aL bR) Q)) (gmul blL h)) by (unfold Lp; module_red; ring).
      assert (ER : Rp = gadd (gadd (lincomb aR GL) (gmul (dot aR bL) Q)) (gmul blR h)) by (unfold Rp; module_red; ring).
      clearbody Lp Rp. unfold challenge in Hr. set (tr1 := app_point "R" (cmp Rp) (app_point "L" (cmp Lp) tr)) in *.
      set (u := H (MChal "u" :: tr1)) in *. unfold inv_unwrap in Hr. destruct (feqb_spec K u 0) as [|Hu]; [discriminate Hr|]. cbn [bind] in Hr.
      set (a' := map2 (fun l r => l * u + finv u * r) aL aR) in *. set (b' := map2 (fun l r => l * finv u + u * r) bL bR) in *.
      set (G' := map2 (fun l r => gadd (gmul (finv u) l) (gmul u r)) GL GR) in *.
      destruct (bullet_loop H k Q h G' a' b' _ blinds (MChal "u" :: tr1)) as [rest| |] eqn:Er; try discriminate Hr. cbn [bind] in Hr. injection Hr as <-.
      destruct (fun p q r => IH G' a' b' _ blinds _ rest p q r Er) as (us & Lus & ER' & EL2 & ER2 & Ea & Ebl);
        [unfold G'; rewrite map2_length; lia|unfold a'; rewrite map2_length; lia|unfold b'; rewrite map2_length; lia|].
      exists (u :: us). cbn [br_L br_R br_a br_b br_G br_blind br_tr length cross map map2 fold_a fold_bl fst snd]. rewrite <- En.
      fold aL aR bL bR GL GR. fold a' b' G'. rewrite <- EL, <- ER, <- EL2, <- ER2, <- Ea, <- Ebl. split; [congruence|].
      split. { rewrite ER'. cbn [replies]. fold u. rewrite <- app_assoc. reflexivity. } repeat split.
  Qed.

  Lemma chal_replies : forall LR (tr : log E) us tr', bullet_challenges H LR tr = (us, tr') -> replies H tr' = replies H tr ++ us.
  Proof.
    induction LR as [|[L R] LR IH]; intros tr us tr' X; cbn [bullet_challenges] in X.
    - injection X as <- <-. now rewrite app_nil_r.
    - unfold challenge in X. destruct (bullet_challenges H LR _) as [us1 tr1] eqn:Y. injection X as <- <-. rewrite (IH _ _ _ Y). cbn [replies app_point]. rewrite <- app_assoc. reflexivity.
  Qed.
End Cross.

Section L.
  Context {K : Fld} {G : Mod K} {E : Enc G}.
  Add Field Kzl2 : (fth K).
  Local Open Scope fld_scope.
  Local Notation cmp := (compress E).

  Definition lp_labels (k : nat) : list string := ["d"; "r_delta"; "r_delta"]%string ++ repeat "blinds_vec_1"%string (2 * k) ++ repeat "blinds_vec_2"%string (2 * k).

  Definition lp_sim (gN g1 : gens G) (k : nat) (a : list K) (Cx Cy : E) (r : K) (us : list K) (c : K) (l : list K) : lproof E :=
    let h := gh gN in
    let z1 := nth 0 l 0 in let z2 := nth 1 l 0 in let be := nth 2 l 0 in
    let ls := firstn k (skipn 3 l) in let rs := firstn k (skipn (2 * k) (skipn 3 l)) in
    let s := tab (2 ^ k) (sval us) in
    let gh' := lincomb s (gG gN) in let ah := dot a s in
    let Q := gmul r (nth 0 (gG g1) g0) in
    let Gamma := gadd (gadd (lincomb (map (fun u => u * u) us) (map (fun x => gmul x h) ls)) (lincomb (map (fun u => finv u * finv u) us) (map (fun x => gmul x h) rs)))
        (gadd (pt Cx) (gmul r (pt Cy))) in
    let beta := gmul be h in
    MkLP (MkBP (map (fun x => cmp (gmul x h)) ls) (map (fun x => cmp (gmul x h)) rs))
      (cmp (gadd (gadd (gmul z1 (gadd gh' (gmul ah Q))) (gmul z2 h)) (gopp (gmul ah (gadd (gmul c Gamma) beta))))) (cmp beta) z1 z2.

  Definition lp_pad (k : nat) (us : list K) (S : list K) (cy ah c bG dq : K) (l : list K) : list K :=
    match l with
    | d :: rd :: rb :: v => (d + cy) :: (rd + ah * (c * fold_bl us (combine (firstn (2 * k) v) (skipn (2 * k) v)) bG + rb)) :: (rb + d * dq) :: map2 fadd S v
    | _ => l
    end.
  Lemma lp_pad_perm k us S cy ah c bG dq : length S = (4 * k)%nat -> permutes (3 + 4 * k) (lp_pad k us S cy ah c bG dq).
  Proof.
    intro L. destruct (permutes_shift (4 * k) S L) as [f' F].
    exists (fun l => match l with
      | d :: rd :: rb :: v => let v0 := f' v in let d0 := d - cy in let rb0 := rb - d0 * dq in
          d0 :: (rd - ah * (c * fold_bl us (combine (firstn (2 * k) v0) (skipn (2 * k) v0)) bG + rb0)) :: rb0 :: v0
      | _ => l end).
    intros l Ll. destruct l as [|d [|rd [|rb v]]]; try discriminate Ll. injection Ll as Lv.
    destruct (F v Lv) as (F1 & F2 & F3 & F4). cbn [lp_pad length plus]. rewrite F1, F2, F3, F4. repeat split.
    - f_equal; [ring|]. replace (rb + d * dq - (d + cy - cy) * dq) with rb by ring. f_equal. ring.
    - f_equal; [ring|]. f_equal; [ring|]. f_equal. ring.
  Qed.

  Lemma map_cmp_inj (l : list G) : forall l', map cmp l = map cmp l' -> l = l'.
  Proof. induction l as [|x l IH]; intros [|y l'] X; try discriminate X; [reflexivity|]. injection X as X Y. rewrite (IH _ Y). f_equal. rewrite <- (pt_cmp (E:=E) x), X. apply pt_cmp. Qed.
  Lemma map2_dl (dl : G -> K) (h : G) (D : forall P, gmul (dl P) h = P) (Ps : list G) : forall (v w : list K), (length Ps <= length v)%nat ->
    map2 (fun P bl => cmp (gadd P (gmul bl h))) Ps v = map (fun x => cmp (gmul x h)) (firstn (length Ps) (map2 fadd (map dl Ps ++ w) v)).
  Proof.
    induction Ps as [|P Ps IH]; intros [|x v] w L; cbn [length] in L; try lia; try reflexivity.
    cbn [map app map2 length firstn]. rewrite <- (IH v w) by lia. f_equal. f_equal. rewrite <- (D P) at 1. module_red; ring.
  Qed.
  Lemma fst_combine {A B} (x : list A) : forall y : list B, length x = length y -> map fst (combine x y) = x.
  Proof. induction x as [|a x IH]; intros [|b y] L; try discriminate L; [reflexivity|]. cbn. f_equal. apply IH. now injection L. Qed.
  Lemma snd_combine {A B} (x : list A) : forall y : list B, length x = length y -> map snd (combine x y) = y.
  Proof. induction x as [|a x IH]; intros [|b y] L; try discriminate L; [reflexivity|]. cbn. f_equal. apply IH. now injection L. Qed.
  Lemma map2_split (a : list K) : forall b c d, length a = length c -> map2 fadd (a ++ b) (c ++ d) = map2 fadd a c ++ map2 fadd b d.
  Proof. induction a as [|x a IH]; intros b [|y c] d L; try discriminate L; [reflexivity|]. cbn. f_equal. apply IH. now injection L. Qed.

  Definition lp_padx (g : dgens G) (k : nat) (a : list K) (dl : G -> K) (x : list K) (bx by_ r : K) (us : list K) (c : K) : list K -> list K :=
    let Q := gmul r (nth 0 (gG (dg1 g)) g0) in
    let cr := cross k Q (gG (dgN g)) x a us in
    let ah := dot a (tab (2 ^ k) (sval us)) in
    lp_pad k us ((map dl (map fst cr) ++ repeat 0 k) ++ map dl (map snd cr) ++ repeat 0 k) (c * (fold_a k x us * ah)) ah c (bx + r * by_) (dl Q).
  Lemma lp_x H (stream : nat -> G) (g : dgens G) k (a : list K) (dl : G -> K) x bx by_ tr tape pf Cx Cy tr' tape' :
    (k < 32)%nat -> length a = (2 ^ k)%nat -> dgens_new (2 ^ k) stream = Ok g -> (forall P, gmul (dl P) (gh (dgN g)) = P) -> length x = (2 ^ k)%nat ->
    lp_prove H g tr tape x bx a (dot x a) by_ = Ok (pf, Cx, Cy, tr', tape') ->
    exists r us c, length us = k /\ replies H tr' = replies H tr ++ r :: us ++ [c] /\ tape' = after (lp_labels k) tape /\
      Cx = cmp (ped (dgN g) x bx) /\ Cy = cmp (ped1 (dg1 g) (dot x a) by_) /\
      pf = lp_sim (dgN g) (dg1 g) k a Cx Cy r us c (lp_padx g k a dl x bx by_ r us c (drawn H (lp_labels k) tape)).
  Proof.
    intros L32 La Hg D Lx Hp. rewrite dgens_new_ok in Hg. injection Hg as <-. cbn [dgN gh] in D. remember (2 ^ k)%nat as n eqn:En.
    set (h := stream (n + 1)%nat) in *. set (G1 := stream n). set (gN := MkGens n (tab n stream) h). set (g1 := MkGens 1 [G1] h).
    assert (HN : gens_ok gN) by (unfold gens_ok; cbn; apply tab_length). assert (H1 : gens_ok g1) by reflexivity.
    assert (ED : drawn H (lp_labels k) tape = drawn H ["d"; "r_delta"; "r_delta"]%string tape ++
      drawn H (repeat "blinds_vec_1"%string (2 * k)) (after ["d"; "r_delta"; "r_delta"]%string tape) ++
      drawn H (repeat "blinds_vec_2"%string (2 * k)) (after (repeat "blinds_vec_1"%string (2 * k)) (after ["d"; "r_delta"; "r_delta"]%string tape)))
      by (unfold lp_labels; rewrite !drawn_app; reflexivity).
    rewrite ED. clear ED. unfold after. cbn [drawn map rev app].
    unfold lp_prove in Hp. cbn [dgn dgN dg1] in Hp. rewrite Lx, La, !Nat.eqb_refl in Hp. unfold random_scalar, challenge in Hp.
    set (d := H (MChal "d" :: tape)) in *. set (t1 := MChal "d" :: tape) in *. set (rd := H (MChal "r_delta" :: t1)) in *. set (rb := H (MChal "r_delta" :: MChal "r_delta" :: t1)) in *.
    set (t2 := MChal "r_delta" :: MChal "r_delta" :: t1) in *.
    rewrite En in Hp at 1. rewrite log_2_ok in Hp. cbn [bind] in Hp. unfold random_vector in Hp. rewrite !challenges_drawn in Hp.
    set (v1 := drawn H (repeat "blinds_vec_1"%string (2 * k)) t2) in *. set (t3 := rev (map MChal (repeat "blinds_vec_1"%string (2 * k))) ++ t2) in *.
    set (v2 := drawn H (repeat "blinds_vec_2"%string (2 * k)) t3) in *.
    assert (Lv1 : length v1 = (2 * k)%nat) by (unfold v1; rewrite drawn_length; apply repeat_length).
    assert (Lv2 : length v2 = (2 * k)%nat) by (unfold v2; rewrite drawn_length; apply repeat_length).
    fold h G1 gN g1 in Hp. rewrite (commit_ok x bx gN HN Lx) in Hp. cbn [bind] in Hp. rewrite (commit1_ok _ _ g1 H1 eq_refl) in Hp. cbn [bind] in Hp.
    set (tr1 := app_scalars "a" a _) in Hp. set (r' := H (MChal "r" :: tr1)) in *.
    rewrite (gens_scale_ok g1 r' H1) in Hp. cbn [bind gn gG gh g1 map] in Hp. rewrite idx_0 in Hp. cbn [bind] in Hp. 
    unfold bullet_prove in Hp. assert (LG : length (gG gN) = n) by apply tab_length. cbn [gG gN gh] in Hp, LG. rewrite LG in Hp.
    unfold is_pow2 in Hp. rewrite En in Hp at 1 2 3. rewrite next_pow2_pow, Nat.eqb_refl in Hp.
    pose proof (pow2_pos k). destruct (Nat.ltb_spec 0 (2 ^ k)) as [_|]; [|lia]. cbn [andb] in Hp. rewrite En in Hp at 1. rewrite log_2_ok in Hp. cbn [bind] in Hp.
    rewrite Lx, La, combine_length, Lv1, Lv2, Nat.min_id, !Nat.eqb_refl in Hp.
    destruct (bullet_loop H k (gmul r' G1) h (tab n stream) x a (bx + r' * by_) (combine v1 v2) (MChal "r" :: tr1)) as [br| |] eqn:Eb; try discriminate Hp.
    cbn [bind] in Hp. rewrite msm_ok in Hp by reflexivity. cbn [bind] in Hp.
    rewrite (commit1_ok d rd (MkGens 1 [br_G br] h) eq_refl eq_refl) in Hp. cbn [bind] in Hp.
    rewrite (commit1_ok d rb (MkGens 1 [gmul r' G1] h) eq_refl eq_refl) in Hp. cbn [bind] in Hp.
    injection Hp as <- <- <- <- <-.
    pose proof Eb as Eb2. rewrite En in Lx, La.
    destruct (loop_cross H (gmul r' G1) h k (tab n stream) x a _ _ _ br ltac:(rewrite tab_length; exact En) Lx La Eb) as (us & Lus & ER1 & EL & ER & Ea & Ebl).
    destruct (bullet_loop_spec H (gmul r' G1) h k (tab n stream) x a _ _ _ br ltac:(rewrite tab_length; exact En) Lx La Eb2) as (us2 & Ls & Rs & Lus2 & Nz & EL' & ER' & LL & LR & Ech & EG & Ebb & Eq).
    assert (us2 = us). { apply (app_inv_head (replies H (MChal "r" :: tr1))). rewrite <- ER1. symmetry. exact (chal_replies H _ _ _ _ Ech). } subst us2.
    eexists r', us, _. split; [exact Lus|].
    split. { cbn [replies app_point]. rewrite ER1. cbn [replies]. unfold tr1 at 1. rewrite replies_scalars. cbn [replies app_point proto]. fold tr1. fold r'. rewrite <- !app_assoc. reflexivity. }
    split. { unfold lp_labels. rewrite !map_app, !rev_app_distr, <- !app_assoc. reflexivity. }
    do 2 (split; [reflexivity|]).
    match goal with |- context [lp_sim _ _ k a _ _ r' us ?c0] => set (c := c0) end. clearbody c.
    clear Ech Eb Eb2 Nz ER1. clearbody r'. rename r' into r.
    set (Q := gmul r G1) in *. set (cr := cross k Q (tab n stream) x a us) in *.
    assert (Lcr : length cr = k) by (apply cross_length; exact Lus).
    set (S1 := map dl (map fst cr) ++ repeat 0 k). set (S2 := map dl (map snd cr) ++ repeat 0 k).
    assert (LS1 : length S1 = (2 * k)%nat) by (unfold S1; rewrite app_length, repeat_length, !map_length; lia).
    assert (LS2 : length S2 = (2 * k)%nat) by (unfold S2; rewrite app_length, repeat_length, !map_length; lia).
    rewrite <- En in EG, Ebb. set (s := tab n (sval us)) in *. set (ah := dot a s). set (xh := fold_a k x us) in *.
    unfold lp_padx. rewrite <- En. change (nth 0 (gG (dg1 (MkDGens n gN g1))) g0) with G1. change (gG (dgN (MkDGens n gN g1))) with (tab n stream). fold Q. fold cr. fold s. fold ah. fold xh. fold S1. fold S2.
    change (tab n stream) with (gG gN) in EG, Eq. cbn [dgN dg1]. fold h G1. fold g1. fold gN.
    rewrite fst_combine in EL by lia. rewrite snd_combine in ER by lia.
    rewrite (map2_dl dl h D _ v1 (repeat 0 k)) in EL by (rewrite map_length; lia). rewrite (map2_dl dl h D _ v2 (repeat 0 k)) in ER by (rewrite map_length; lia).
    rewrite map_length, Lcr in EL, ER. fold S1 in EL. fold S2 in ER.
    unfold lp_pad. cbn [app].
    assert (Ev1 : firstn (2 * k) (v1 ++ v2) = v1) by (rewrite <- Lv1, firstn_app, Nat.sub_diag, firstn_all; cbn [firstn]; apply app_nil_r).
    assert (Ev2 : skipn (2 * k) (v1 ++ v2) = v2) by (rewrite <- Lv1, skipn_app, Nat.sub_diag, skipn_all; reflexivity).
    rewrite Ev1, Ev2, <- Ebl. rewrite map2_split by lia. set (w1 := map2 fadd S1 v1) in *. set (w2 := map2 fadd S2 v2) in *.
    assert (Lw1 : length w1 = (2 * k)%nat) by (unfold w1; rewrite map2_length; lia).
    unfold lp_sim. rewrite <- En. cbn [nth skipn].
    assert (Ew1 : firstn k (w1 ++ w2) = firstn k w1) by (rewrite firstn_app; replace (k - length w1)%nat with 0%nat by lia; cbn [firstn]; apply app_nil_r).
    assert (Ew2 : skipn (2 * k) (w1 ++ w2) = w2) by (rewrite <- Lw1, skipn_app, Nat.sub_diag, skipn_all; reflexivity).
    rewrite Ew1, Ew2, !pt_cmp. change (gh gN) with h. rewrite <- EL, <- ER. change (nth 0 (gG g1) g0) with G1. fold Q.
    assert (FL : map (fun x => gmul x h) (firstn k w1) = Ls) by (apply map_cmp_inj; rewrite map_map, <- EL'; symmetry; exact EL).
    assert (FR : map (fun x => gmul x h) (firstn k w2) = Rs) by (apply map_cmp_inj; rewrite map_map, <- ER'; symmetry; exact ER).
    rewrite FL, FR. fold s. fold ah. rewrite <- EG. fold ah in Ebb. rewrite Ebb, Ea in *.
    assert (EB : cmp (ped1 (MkGens 1 [Q] h) d rb) = cmp (gmul (rb + d * dl Q) h)).
    { f_equal. rewrite (ped1_unfold (MkGens 1 [Q] h) Q _ _ eq_refl). cbn [gh]. rewrite <- (D Q) at 1. module_red; ring. }
    rewrite EB. f_equal.
    2: { ring. }
    f_equal. rewrite (ped1_unfold (MkGens 1 [br_G br] h) (br_G br) _ _ eq_refl). cbn [gh]. rewrite (ped1_unfold g1 G1 _ _ eq_refl). unfold ped. cbn [gh g1 gN].
    assert (EQ' : gadd (gadd (lincomb (map (fun u => u * u) us) Ls) (lincomb (map (fun u => finv u * finv u) us) Rs))
        (gadd (gadd (lincomb x (gG gN)) (gmul bx h)) (gmul r (gadd (gmul (dot x a) G1) (gmul by_ h)))) =
        gadd (gadd (gmul xh (br_G br)) (gmul (xh * ah) Q)) (gmul (br_blind br) h)).
    { rewrite Eq. unfold Q. module_red; ring. }
    rewrite EQ'. pose proof (D Q) as DQ. set (q := dl Q) in *. clearbody q. rewrite <- DQ. module_red; ring.
  Qed.
  Lemma lp_padx_perm g k a dl x bx by_ r us c : length us = k -> permutes (3 + 4 * k) (lp_padx g k a dl x bx by_ r us c).
  Proof. intro L. apply lp_pad_perm. rewrite !app_length, !repeat_length, !map_length, cross_length by exact L. lia. Qed.
  Lemma lp_zk (stream : nat -> G) (g : dgens G) k (a : list K) (dl : G -> K) :
    (k < 32)%nat -> length a = (2 ^ k)%nat -> dgens_new (2 ^ k) stream = Ok g -> (forall P, gmul (dl P) (gh (dgN g)) = P) ->
    exists sim : E -> E -> K -> list K -> K -> list K -> lproof E,
    forall x bx by_ r us c, length x = (2 ^ k)%nat -> length us = k -> exists pad, permutes (3 + 4 * k) pad /\
    forall H tr tape pf Cx Cy tr' tape', lp_prove H g tr tape x bx a (dot x a) by_ = Ok (pf, Cx, Cy, tr', tape') ->
      replies H tr' = replies H tr ++ r :: us ++ [c] -> pf = sim Cx Cy r us c (pad (drawn H (lp_labels k) tape)).
  Proof.
    intros L32 La Hg D. exists (lp_sim (dgN g) (dg1 g) k a). intros x bx by_ r us c Lx Lus. exists (lp_padx g k a dl x bx by_ r us c). split; [apply lp_padx_perm, Lus|].
    intros H tr tape pf Cx Cy tr' tape' Hp HR. destruct (lp_x H stream g k a dl x bx by_ tr tape pf Cx Cy tr' tape' L32 La Hg D Lx Hp) as (r1 & us1 & c1 & Lus1 & R & _ & _ & _ & ->).
    rewrite R in HR. apply app_inv_head in HR. injection HR as -> HR.
    assert (us1 = us). { apply (f_equal (firstn k)) in HR. rewrite !firstn_app, Lus, Lus1, Nat.sub_diag in HR. cbn [firstn] in HR. rewrite !app_nil_r in HR. now rewrite !firstn_all2 in HR by lia. } subst us1.
    apply app_inv_head in HR. injection HR as ->. reflexivity.
  Qed.
End L.
