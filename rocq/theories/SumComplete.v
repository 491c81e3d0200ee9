(** Sum-check: completeness of the provers. *)
From Coq Require Import String List Arith Lia Bool Field Ring.
From Verif Require Import Base ListAux Field Vec MathModel PolyModel PolySpec PolyProofs PolyImp CommitModel SigmaModel CommitSpec CommitProofs SigmaProofs SumModel SumSpec SumProofs.
Import ListNotations.

Lemma mapM_rel {A B} (f : A -> res B) (R : A -> B -> Prop) l :
  (forall a, In a l -> exists b, f a = Ok b /\ R a b) -> exists bs, mapM f l = Ok bs /\ Forall2 R l bs.
Proof.
  induction l as [|a l IH]; intro H; [exists []; split; [reflexivity|constructor]|].
  destruct (H a (or_introl eq_refl)) as (b & Eb & Rb).
  destruct IH as (bs & Ebs & Rbs); [intros x Hx; apply H; right; exact Hx|].
  exists (b :: bs). cbn [mapM]. rewrite Eb, Ebs. split; [reflexivity|constructor; assumption].
Qed.
Lemma map2_map_same {A B C D} (f : B -> C -> D) (g : A -> B) (h : A -> C) l :
  map2 f (map g l) (map h l) = map (fun x => f (g x) (h x)) l.
Proof. induction l; cbn; congruence. Qed.
Lemma Forall2_map_eq {A B C} (f : A -> C) (g : B -> C) l m : Forall2 (fun a b => f a = g b) l m -> map f l = map g m.
Proof. induction 1; cbn; congruence. Qed.
Lemma F2_length {A B} (R : A -> B -> Prop) l m : Forall2 R l m -> length l = length m.
Proof. induction 1; cbn; congruence. Qed.
Lemma Forall2_impl' {A B} (R S : A -> B -> Prop) l m : (forall a b, In a l -> In b m -> R a b -> S a b) -> Forall2 R l m -> Forall2 S l m.
Proof.
  intros H F. induction F; constructor.
  - apply H; [left; reflexivity..|assumption].
  - apply IHF. intros a b Ha Hb. apply H; right; assumption.
Qed.
Lemma Forall2_In_r {A B} (R : A -> B -> Prop) l m b : Forall2 R l m -> In b m -> exists a, In a l /\ R a b.
Proof.
  induction 1; intros []; [subst; eauto using in_eq|]. destruct (IHForall2 H1) as (a & Ha & Ra). eauto using in_cons.
Qed.
Lemma Forall2_comp {A B C} (R : A -> B -> Prop) (S : B -> C -> Prop) (T : A -> C -> Prop) l m n :
  (forall a b c, R a b -> S b c -> T a c) -> Forall2 R l m -> Forall2 S m n -> Forall2 T l n.
Proof. intros H F. revert n. induction F; intros n F2; inversion F2; subst; constructor; eauto. Qed.

Section Complete.
  Context {K : Fld} {G : Mod K} {E : Enc G}.
  Variable H : log E -> K.
  Local Open Scope fld_scope.
  Add Field Ksc : (fth K).
  Local Notation lv p := (live (K:=K) p).

  (** a family of polynomials over the same n variables *)
  Definition fam (n : nat) (ps : list (dense K)) : Prop :=
    ps <> [] /\ forall p, In p ps -> dense_ok p /\ dnum_vars p = n.
  (** the value of the round polynomial at [t] *)
  Definition line (comb : list K -> K) (n : nat) (ps : list (dense K)) (t : K) : K :=
    sumn (2 ^ n) (fun i => comb (map (fun p => nth i (lv p) 0 + t * (nth (i + 2 ^ n) (lv p) 0 - nth i (lv p) 0)) ps)).

  Lemma dense_index_live (p : dense K) i : dense_ok p -> (i < dlen p)%nat -> dense_index p i = Ok (nth i (lv p) 0).
  Proof. intros [A B] Hi. unfold dense_index. rewrite live_nth by exact Hi. apply PolyImp.idx_nth. lia. Qed.

  Lemma points_at_ok n ps i : fam (S n) ps -> (i < 2 ^ n)%nat ->
    points_at ps (2 ^ n) i = Ok (map (fun p => nth i (lv p) 0 + 0 * (nth (i + 2 ^ n) (lv p) 0 - nth i (lv p) 0)) ps,
      map (fun p => nth i (lv p) 0 + of_nat 2 * (nth (i + 2 ^ n) (lv p) 0 - nth i (lv p) 0)) ps,
      map (fun p => nth i (lv p) 0 + of_nat 3 * (nth (i + 2 ^ n) (lv p) 0 - nth i (lv p) 0)) ps).
  Proof.
    intros [_ F] Hi. unfold points_at.
    assert (P2 : (2 ^ S n = 2 ^ n + 2 ^ n)%nat) by (cbn; lia).
    rewrite (mapM_ok _ (fun p => nth i (lv p) 0)).
    2: { intros p Hp. destruct (F p Hp) as [O N]. apply dense_index_live; [exact O|]. destruct O as [O _]. rewrite O, N. lia. }
    rewrite (mapM_ok _ (fun p => nth (i + 2 ^ n) (lv p) 0)).
    2: { intros p Hp. destruct (F p Hp) as [O N]. rewrite Nat.add_comm. apply dense_index_live; [exact O|]. destruct O as [O _]. rewrite O, N. lia. }
    cbn [bind]. rewrite !map2_map_same. f_equal. f_equal; [f_equal|]; apply map_ext; intro p; cbn [of_nat]; ring.
  Qed.

  Lemma round_points_ok comb n ps : fam (S n) ps ->
    round_points comb ps = Ok (line comb n ps 0, line comb n ps (of_nat 2), line comb n ps (of_nat 3)).
  Proof.
    intros F. pose proof F as [N A]. destruct ps as [|p ps']; [congruence|]. unfold round_points.
    assert (L : (dlen p / 2 = 2 ^ n)%nat).
    { destruct (A p (or_introl eq_refl)) as [[O _] D]. rewrite O, D. apply (pow_half). }
    rewrite L. set (ps := p :: ps') in *.
    rewrite (mapM_ok _ (fun i =>
      (comb (map (fun p => nth i (lv p) 0 + 0 * (nth (i + 2 ^ n) (lv p) 0 - nth i (lv p) 0)) ps),
       comb (map (fun p => nth i (lv p) 0 + of_nat 2 * (nth (i + 2 ^ n) (lv p) 0 - nth i (lv p) 0)) ps),
       comb (map (fun p => nth i (lv p) 0 + of_nat 3 * (nth (i + 2 ^ n) (lv p) 0 - nth i (lv p) 0)) ps)))).
    2: { intros i Hi. apply in_seq in Hi. rewrite (points_at_ok n) by (try assumption; lia). reflexivity. }
    cbn [bind]. rewrite !map_map. reflexivity.
  Qed.

  (** binding the first variable *)
  Definition bound_by (r : K) (n : nat) (p p' : dense K) : Prop :=
    bound_poly_var_top p r = Ok p' /\ dense_ok p' /\ dnum_vars p' = n /\
    (forall i, (i < 2 ^ n)%nat -> nth i (lv p') 0 = nth i (lv p) 0 + r * (nth (i + 2 ^ n) (lv p) 0 - nth i (lv p) 0)) /\
    forall rs, length rs = n -> mle (lv p') rs = mle (lv p) (r :: rs).
  Lemma bound_by_ok r n (p : dense K) : dense_ok p -> dnum_vars p = S n -> exists p', bound_by r n p p'.
  Proof.
    intros O D. destruct (bind_top_ok K p r n O D) as (p' & Eb & O' & D' & L & _).
    exists p'. split; [exact Eb|]. split; [exact O'|]. split; [exact D'|]. split.
    - intros i Hi. rewrite L, nth_tab by exact Hi. reflexivity.
    - intros rs Lr. destruct (bind_top_mle K p r rs O ltac:(congruence)) as (p2 & Eb2 & _ & _ & M).
      rewrite Eb in Eb2. injection Eb2 as <-. exact M.
  Qed.
  Lemma bind_all_ok r n ps : fam (S n) ps -> exists ps', bind_all ps r = Ok ps' /\ Forall2 (bound_by r n) ps ps' /\ fam n ps'.
  Proof.
    intros [N F]. destruct (mapM_rel (fun p => bound_poly_var_top p r) (bound_by r n) ps) as (ps' & Em & R).
    { intros p Hp. destruct (F p Hp) as [O D]. destruct (bound_by_ok r n p O D) as (p' & B). exists p'. split; [apply B|exact B]. }
    exists ps'. split; [exact Em|]. split; [exact R|]. split.
    - intros ->. inversion R; subst. congruence.
    - intros p' Hp. destruct (Forall2_In_r _ _ _ _ R Hp) as (p & _ & B). split; apply B.
  Qed.

  Lemma table_sum_bound comb r n ps ps' : Forall2 (bound_by r n) ps ps' ->
    table_sum comb n (map (fun p => lv p) ps') = line comb n ps r.
  Proof.
    intro R. unfold table_sum, line. apply sumn_ext. intros i Hi. f_equal. rewrite map_map. symmetry.
    apply Forall2_map_eq. revert R. apply Forall2_impl'. intros p p' _ _ B. symmetry. apply B, Hi.
  Qed.
  Lemma table_sum_line comb n ps : table_sum comb (S n) (map (fun p => lv p) ps) = line comb n ps 0 + line comb n ps 1.
  Proof.
    unfold table_sum, line. replace (2 ^ S n)%nat with (2 ^ n + 2 ^ n)%nat by (cbn; lia). rewrite sumn_add.
    f_equal; apply sumn_ext; intros i Hi; f_equal; rewrite map_map; apply map_ext; intro p; [ring|].
    rewrite Nat.add_comm. ring.
  Qed.

  (** polynomials in t *)
  Definition is_poly (d : nat) (g : K -> K) : Prop := exists cs, length cs = S d /\ forall t, g t = peval cs t.
  Lemma is_poly_0 d : is_poly d (fun _ => 0).
  Proof.
    exists (repeat 0 (S d)). split; [apply repeat_length|]. intro t. generalize (S d). intro k.
    induction k; cbn [repeat]; rewrite ?peval_nil, ?peval_cons; [reflexivity|]. rewrite <- IHk. ring.
  Qed.
  Lemma is_poly_add d g h s : is_poly d g -> is_poly d h -> is_poly d (fun t => g t + s * h t).
  Proof.
    intros (a & La & Ea) (b & Lb & Eb). exists (padd s a b). split; [rewrite padd_length; lia|].
    intro t. rewrite peval_padd, Ea, Eb. reflexivity.
  Qed.
  Lemma is_poly_ext d g h : (forall t, g t = h t) -> is_poly d g -> is_poly d h.
  Proof. intros A (cs & L & B). exists cs. split; [exact L|]. intro t. rewrite <- A. apply B. Qed.
  Lemma is_poly_sumn d n : forall f : nat -> K -> K, (forall i, (i < n)%nat -> is_poly d (f i)) -> is_poly d (fun t => sumn n (fun i => f i t)).
  Proof.
    induction n; intros f A; [apply (is_poly_ext d (fun _ => 0)); [reflexivity|apply is_poly_0]|].
    apply (is_poly_ext d (fun t => f 0%nat t + 1 * sumn n (fun i => f (S i) t))).
    - intro t. rewrite sumn_S. ring.
    - apply is_poly_add; [apply A; lia|]. apply (IHn (fun i => f (S i))). intros i Hi. apply A. lia.
  Qed.
  Lemma line_poly d comb n ps : line_deg d (length ps) comb -> is_poly d (line comb n ps).
  Proof.
    intros D. unfold line. apply (is_poly_sumn d (2 ^ n) (fun i t => comb (map (fun p => nth i (lv p) 0 + t * (nth (i + 2 ^ n) (lv p) 0 - nth i (lv p) 0)) ps))).
    intros i _. destruct (D (map (fun p => nth i (lv p) 0) ps) (map (fun p => nth (i + 2 ^ n) (lv p) 0) ps)) as (cs & L & A); [apply map_length..|].
    exists cs. split; [exact L|]. intro t. rewrite <- A, map2_map_same. reflexivity.
  Qed.

  Hypothesis two : (of_nat 2 : K) <> 0.
  Hypothesis three : (of_nat 3 : K) <> 0.

  Lemma cubic_poly_ok (g : K -> K) e : is_poly 3 g -> e = g 0 + g 1 ->
    exists p, cubic_poly e (g 0, g (of_nat 2), g (of_nat 3)) = Ok p /\ length p = 4%nat /\ forall t, peval p t = g t.
  Proof.
    intros (cs & L & A) Ee. unfold cubic_poly. destruct (from_evals_4 K (g 0) (e - g 0) (g (of_nat 2)) (g (of_nat 3)) two three) as (p & Ep & Lp & P0 & P1 & P2 & P3).
    exists p. split; [exact Ep|]. split; [exact Lp|]. assert (p = cs).
    { apply (interp_unique_4 K p cs two three Lp L); rewrite <- A; try assumption. rewrite P1, Ee. ring. }
    subst p. intro t. symmetry. apply A.
  Qed.
  Lemma quad_poly_ok (g : K -> K) e v3 : is_poly 2 g -> e = g 0 + g 1 ->
    exists p, quad_poly e (g 0, g (of_nat 2), v3) = Ok p /\ length p = 3%nat /\ forall t, peval p t = g t.
  Proof.
    intros (cs & L & A) Ee. unfold quad_poly. destruct (from_evals_3 K (g 0) (e - g 0) (g (of_nat 2)) two) as (p & Ep & Lp & P0 & P1 & P2).
    exists p. split; [exact Ep|]. split; [exact Lp|]. assert (p = cs).
    { apply (interp_unique_3 K p cs two Lp L); rewrite <- A; try assumption. rewrite P1, Ee. ring. }
    subst p. intro t. symmetry. apply A.
  Qed.

  (** one round of the verifier on an honest polynomial *)
  Lemma sc_step p polys e d (tr : log E) : length p = S d -> (1 <= d)%nat -> peval p 0 + peval p 1 = e ->
    exists cp, PolyModel.compress p = Ok cp /\
    sc_rounds H (cp :: polys) e d tr =
      do rest <- sc_rounds H polys (peval p (H (MChal "challenge_nextround" :: app_unipoly "poly" p tr))) d
           (MChal "challenge_nextround" :: app_unipoly "poly" p tr);
      let '(ef, r, tr2) := rest in Ok (ef, H (MChal "challenge_nextround" :: app_unipoly "poly" p tr) :: r, tr2).
  Proof.
    intros L D S. destruct p as [|c0 [|c1 t]]; cbn [length] in L; try lia.
    exists (c0 :: t). split; [reflexivity|]. cbn [sc_rounds].
    pose proof (compress_decompress K c0 c1 t) as A. cbn [PolyModel.compress bind] in A. rewrite S in A. rewrite A. cbn [bind degree].
    replace (length (c1 :: t)) with d by (cbn; lia). rewrite Nat.eqb_refl. cbn [eval_at_zero idx nth_error of_opt bind].
    rewrite peval_0, peval_1 in S. unfold eval_at_one. rewrite S. destruct (feqb_spec K e e) as [_|N]; [|congruence].
    unfold challenge. rewrite uni_evaluate_ok. cbn [bind]. reflexivity.
  Qed.

  Lemma uni_evaluate_len p (x : K) : (1 <= length p)%nat -> uni_evaluate p x = Ok (peval p x).
  Proof. destruct p; cbn [length]; [lia|]. intros _. apply uni_evaluate_ok. Qed.

  Lemma cubic_rounds_ok comb n : forall ps e (tr : log E), fam n ps -> line_deg 3 (length ps) comb -> e = table_sum comb n (map (fun p => lv p) ps) ->
    exists polys r ps' tr', cubic_rounds H comb n e ps tr = Ok (polys, r, ps', tr') /\ length r = n /\ length polys = n /\ fam 0 ps' /\
      Forall2 (fun p p' => nth 0 (lv p') 0 = mle (lv p) r) ps ps' /\
      sc_rounds H polys e 3 tr = Ok (comb (map (fun p => nth 0 (lv p) 0) ps'), r, tr').
  Proof.
    induction n as [|n IH]; intros ps e tr F D Ee.
    - exists [], [], ps, tr. cbn [cubic_rounds sc_rounds]. do 3 (split; [reflexivity|]). split; [exact F|]. split.
      + clear - ps. induction ps; constructor; [|assumption]. rewrite mle_nil. reflexivity.
      + rewrite Ee. unfold table_sum. cbn [Nat.pow]. rewrite sumn_S, sumn_nil, map_map. do 3 f_equal. ring.
    - cbn [cubic_rounds]. rewrite (round_points_ok comb n ps F). cbn [bind].
      destruct (cubic_poly_ok (line comb n ps) e (line_poly 3 comb n ps D)) as (p & Ep & Lp & P).
      { rewrite Ee. apply table_sum_line. }
      rewrite Ep. cbn [bind]. unfold challenge.
      assert (S01 : peval p 0 + peval p 1 = e) by (rewrite !P, Ee; symmetry; apply table_sum_line).
      set (tr1 := MChal _ :: _). set (rj := H tr1).
      destruct (bind_all_ok rj n ps F) as (ps1 & Eb & Rb & F1). rewrite Eb. cbn [bind].
      rewrite uni_evaluate_len by lia. cbn [bind].
      assert (L1 : length ps1 = length ps) by (symmetry; exact (F2_length _ _ _ Rb)).
      destruct (IH ps1 (peval p rj) tr1 F1) as (polys & r & ps' & tr' & Er & Lr & Lpo & F' & M & V).
      { rewrite L1. exact D. } { rewrite P. symmetry. apply table_sum_bound, Rb. }
      destruct (sc_step p polys e 3 tr Lp ltac:(lia) S01) as (cp & Ec & Ev).
      rewrite Ec. cbn [bind]. rewrite Er. cbn [bind].
      exists (cp :: polys), (rj :: r), ps', tr'. split; [reflexivity|]. do 2 (split; [cbn [length]; congruence|]). split; [exact F'|]. split.
      + revert M. eapply Forall2_comp; [|exact Rb]. cbn beta. intros a b c Rab Rbc. rewrite Rbc. apply Rab. exact Lr.
      + rewrite Ev. fold tr1. fold rj. rewrite V. reflexivity.
  Qed.

  (** * The batched prover: several sums weighted by coefficients *)
  Definition pl (x : dense K * dense K) (C : dense K) : list (dense K) := [fst x; snd x; C].
  Definition tl3 (x : dense K * dense K * dense K) : list (dense K) := [fst (fst x); snd (fst x); snd x].
  Definition groups (par : list (dense K * dense K)) (C : dense K) (sq : list (dense K * dense K * dense K)) : list (list (dense K)) :=
    map (fun x => pl x C) par ++ map tl3 sq.
  Definition fams (n : nat) (gs : list (list (dense K))) : Prop := forall ps, In ps gs -> fam n ps /\ length ps = 3%nat.
  Definition gline comb n (coeffs : list K) (gs : list (list (dense K))) (t : K) : K := dot (map (fun ps => line comb n ps t) gs) coeffs.
  Definition gsumt comb n (coeffs : list K) (gs : list (list (dense K))) : K := dot (map (fun ps => table_sum comb n (map (fun p => lv p) ps)) gs) coeffs.

  Lemma gline_poly d comb n coeffs gs : line_deg d 3 comb -> fams n gs \/ fams (S n) gs -> is_poly d (gline comb n coeffs gs).
  Proof.
    intros D F. assert (L : forall ps, In ps gs -> length ps = 3%nat) by (destruct F as [F|F]; intros ps Hp; apply (F ps Hp)).
    clear F. revert coeffs. induction gs as [|ps gs IH]; intros coeffs.
    - apply (is_poly_ext d (fun _ => 0)); [reflexivity|apply is_poly_0].
    - destruct coeffs as [|c coeffs].
      + apply (is_poly_ext d (fun _ => 0)); [intro t; unfold gline; rewrite dot_nil_r; reflexivity|apply is_poly_0].
      + apply (is_poly_ext d (fun t => gline comb n coeffs gs t + c * line comb n ps t)).
        * intro t. unfold gline. cbn [map]. rewrite dot_cons. ring.
        * apply is_poly_add; [apply IH; intros q Hq; apply L; right; exact Hq|]. apply line_poly. rewrite (L ps (or_introl eq_refl)). exact D.
  Qed.
  Lemma gsumt_line comb n coeffs gs : gsumt comb (S n) coeffs gs = gline comb n coeffs gs 0 + gline comb n coeffs gs 1.
  Proof.
    unfold gsumt, gline. revert coeffs. induction gs as [|ps gs IH]; intros [|c coeffs]; cbn [map]; rewrite ?dot_nil_l, ?dot_nil_r; [ring..|].
    rewrite !dot_cons, IH, table_sum_line. ring.
  Qed.
  Lemma gsumt_bound comb r n coeffs gs gs' : Forall2 (Forall2 (bound_by r n)) gs gs' -> gsumt comb n coeffs gs' = gline comb n coeffs gs r.
  Proof.
    unfold gsumt, gline. intro R. f_equal. symmetry. apply Forall2_map_eq. revert R. apply Forall2_impl'.
    intros ps ps' _ _ B. symmetry. apply table_sum_bound, B.
  Qed.
  Lemma batch_points_ok f n par C sq : fams (S n) (groups par C sq) ->
    batch_points f par C sq = Ok (map (fun ps => (line (on3 f) n ps 0, line (on3 f) n ps (of_nat 2), line (on3 f) n ps (of_nat 3))) (groups par C sq)).
  Proof.
    intro F. unfold batch_points, groups. rewrite map_app, !map_map.
    rewrite (mapM_ok _ (fun x => (line (on3 f) n (pl x C) 0, line (on3 f) n (pl x C) (of_nat 2), line (on3 f) n (pl x C) (of_nat 3)))).
    2: { intros [A B] Hx. apply round_points_ok. apply F. unfold groups. apply in_or_app. left. apply in_map_iff. exists (A, B). split; [reflexivity|exact Hx]. }
    rewrite (mapM_ok _ (fun x => (line (on3 f) n (tl3 x) 0, line (on3 f) n (tl3 x) (of_nat 2), line (on3 f) n (tl3 x) (of_nat 3)))).
    2: { intros [[A B] C'] Hx. apply round_points_ok. apply F. unfold groups. apply in_or_app. right. apply in_map_iff. exists (A, B, C'). split; [reflexivity|exact Hx]. }
    reflexivity.
  Qed.
  Lemma combine_points_ok comb n coeffs gs : (length gs <= length coeffs)%nat ->
    combine_points coeffs (map (fun ps => (line comb n ps 0, line comb n ps (of_nat 2), line comb n ps (of_nat 3))) gs) =
    Ok (gline comb n coeffs gs 0, gline comb n coeffs gs (of_nat 2), gline comb n coeffs gs (of_nat 3)).
  Proof.
    intro L. unfold combine_points. rewrite map_length. replace (Nat.leb _ _) with true by (symmetry; apply Nat.leb_le, L).
    rewrite !map_map. reflexivity.
  Qed.
  Lemma fams_groups n par C sq : dense_ok C -> dnum_vars C = n ->
    (forall A B, In (A, B) par -> (dense_ok A /\ dnum_vars A = n) /\ (dense_ok B /\ dnum_vars B = n)) ->
    (forall A B C, In (A, B, C) sq -> (dense_ok A /\ dnum_vars A = n) /\ (dense_ok B /\ dnum_vars B = n) /\ (dense_ok C /\ dnum_vars C = n)) ->
    fams n (groups par C sq).
  Proof.
    intros OC NC FP FS ps Hp. unfold groups in Hp. apply in_app_or in Hp. destruct Hp as [Hp|Hp]; apply in_map_iff in Hp; destruct Hp as (x & <- & Hx).
    - destruct x as [A B]. destruct (FP A B Hx) as [FA FB]. unfold pl. cbn [fst snd]. split; [|reflexivity].
      split; [congruence|]. intros p [<-|[<-|[<-|[]]]]; [exact FA|exact FB|split; assumption].
    - destruct x as [[A B] C']. destruct (FS A B C' Hx) as (FA & FB & FC). unfold tl3. cbn [fst snd]. split; [|reflexivity].
      split; [congruence|]. intros p [<-|[<-|[<-|[]]]]; [exact FA|exact FB|exact FC].
  Qed.

  (** the three parts after one more variable is bound *)
  Definition b2 r n (x y : dense K * dense K) := bound_by r n (fst x) (fst y) /\ bound_by r n (snd x) (snd y).
  Definition b3 r n (x y : dense K * dense K * dense K) :=
    bound_by r n (fst (fst x)) (fst (fst y)) /\ bound_by r n (snd (fst x)) (snd (fst y)) /\ bound_by r n (snd x) (snd y).
  (** the parts fully bound at [r] *)
  Definition at_pt (r : list K) (p p' : dense K) : Prop := dense_index p' 0 = Ok (mle (lv p) r).
  Definition a2 r (x y : dense K * dense K) := at_pt r (fst x) (fst y) /\ at_pt r (snd x) (snd y).
  Definition a3 r (x y : dense K * dense K * dense K) := at_pt r (fst (fst x)) (fst (fst y)) /\ at_pt r (snd (fst x)) (snd (fst y)) /\ at_pt r (snd x) (snd y).
  Definition all_ok (n : nat) (par : list (dense K * dense K)) (C : dense K) (sq : list (dense K * dense K * dense K)) : Prop :=
    (dense_ok C /\ dnum_vars C = n) /\
    (forall A B, In (A, B) par -> (dense_ok A /\ dnum_vars A = n) /\ (dense_ok (K:=K) B /\ dnum_vars B = n)) /\
    (forall A B C, In (A, B, C) sq -> (dense_ok A /\ dnum_vars A = n) /\ (dense_ok B /\ dnum_vars B = n) /\ (dense_ok (K:=K) C /\ dnum_vars C = n)).
  Lemma groups_bound r n par par' C C' sq sq' : Forall2 (b2 r n) par par' -> bound_by r n C C' -> Forall2 (b3 r n) sq sq' ->
    Forall2 (Forall2 (bound_by r n)) (groups par C sq) (groups par' C' sq').
  Proof.
    intros P BC S. unfold groups. apply Forall2_app.
    - clear - P BC. induction P as [|x y l l' B P IH]; cbn [map]; constructor; [|assumption]. destruct B as [X Y]. unfold pl. do 3 (constructor; [assumption|]). constructor.
    - clear - S. induction S as [|x y l l' B P IH]; cbn [map]; constructor; [|assumption]. destruct B as (X & Y & Z). unfold tl3. do 3 (constructor; [assumption|]). constructor.
  Qed.
  (** the combined value of the fully bound tables *)
  Definition final_val (f : K -> K -> K -> K) coeffs (r : list K) par C sq : K :=
    dot (map (fun ps => on3 f (map (fun p => mle (lv p) r) ps)) (groups par C sq)) coeffs.

  Lemma live_index (p : dense K) : dense_ok p -> dnum_vars p = 0%nat -> dense_index p 0 = Ok (mle (lv p) []).
  Proof. intros O N. rewrite mle_nil. apply dense_index_live; [exact O|]. destruct O as [O _]. rewrite O, N. cbn. lia. Qed.
  Lemma at_pt_cons r rs n (p p1 p' : dense K) : length rs = n -> bound_by r n p p1 -> at_pt rs p1 p' -> at_pt (r :: rs) p p'.
  Proof. intros L B A. unfold at_pt in *. rewrite A. f_equal. apply B, L. Qed.
  Lemma mle_bound r n rs (p p1 : dense K) : length rs = n -> bound_by r n p p1 -> mle (lv p1) rs = mle (lv p) (r :: rs).
  Proof. intros L B. apply B, L. Qed.

  Lemma batch_rounds_ok f coeffs n : line_deg 3 3 (on3 f) -> forall par C sq e (tr : log E), all_ok n par C sq ->
    (length par + length sq <= length coeffs)%nat -> e = gsumt (on3 f) n coeffs (groups par C sq) ->
    exists polys r par' C' sq' tr', batch_rounds H f coeffs n e par C sq tr = Ok (polys, r, (par', C', sq'), tr') /\
      length r = n /\ length polys = n /\ Forall2 (a2 r) par par' /\ at_pt r C C' /\ Forall2 (a3 r) sq sq' /\
      sc_rounds H polys e 3 tr = Ok (final_val f coeffs r par C sq, r, tr').
  Proof.
    intro D. induction n as [|n IH]; intros par C sq e tr A LC Ee.
    - destruct A as (OC & FP & FS).
      exists [], [], par, C, sq, tr. cbn [batch_rounds sc_rounds]. do 3 (split; [reflexivity|]). split.
      { apply (Forall2_impl' eq); [|clear; induction par; constructor; auto].
        intros [X Y] ? Hx _ <-. destruct (FP X Y Hx) as [[OX NX] [OY NY]]. split; apply live_index; assumption. }
      split; [apply live_index; apply OC|]. split.
      { apply (Forall2_impl' eq); [|clear; induction sq; constructor; auto].
        intros [[X Y] Z] ? Hx _ <-. destruct (FS X Y Z Hx) as ([OX NX] & [OY NY] & OZ & NZ). repeat split; apply live_index; assumption. }
      rewrite Ee. do 3 f_equal. unfold gsumt, final_val. f_equal. apply map_ext. intro ps.
      unfold table_sum. cbn [Nat.pow]. rewrite sumn_S, sumn_nil, map_map.
      transitivity (on3 f (map (fun x => nth 0 (lv x) 0) ps)); [ring|]. f_equal. apply map_ext. intro p. rewrite mle_nil. reflexivity.
    - pose proof A as A0. destruct A as ([OC NC] & FP & FS). cbn [batch_rounds].
      assert (F : fams (S n) (groups par C sq)) by (apply fams_groups; assumption).
      rewrite (batch_points_ok f n par C sq F). cbn [bind]. rewrite combine_points_ok.
      2: { unfold groups. rewrite app_length, !map_length. exact LC. }
      cbn [bind].
      destruct (cubic_poly_ok (gline (on3 f) n coeffs (groups par C sq)) e) as (p & Ep & Lp & P).
      { apply gline_poly; [exact D|right; exact F]. } { rewrite Ee. apply gsumt_line. }
      rewrite Ep. cbn [bind]. unfold challenge.
      assert (S01 : peval p 0 + peval p 1 = e) by (rewrite !P, Ee; symmetry; apply gsumt_line).
      set (tr1 := MChal _ :: _). set (rj := H tr1).
      destruct (mapM_rel (fun '(A, B) => do A <- bound_poly_var_top A rj; do B <- bound_poly_var_top B rj; Ok (A, B)) (b2 rj n) par) as (par1 & E1 & R1).
      { intros [X Y] Hx. destruct (FP X Y Hx) as [[OX NX] [OY NY]].
        destruct (bound_by_ok rj n X OX NX) as (X' & BX). destruct (bound_by_ok rj n Y OY NY) as (Y' & BY).
        exists (X', Y'). rewrite (proj1 BX). cbn [bind]. rewrite (proj1 BY). cbn [bind]. split; [reflexivity|split; assumption]. }
      rewrite E1. cbn [bind]. destruct (bound_by_ok rj n C OC NC) as (C1 & BC). rewrite (proj1 BC). cbn [bind].
      destruct (mapM_rel (fun '(A, B, C) => do A <- bound_poly_var_top A rj; do B <- bound_poly_var_top B rj; do C <- bound_poly_var_top C rj; Ok (A, B, C)) (b3 rj n) sq) as (sq1 & E2 & R2).
      { intros [[X Y] Z] Hx. destruct (FS X Y Z Hx) as ([OX NX] & [OY NY] & OZ & NZ).
        destruct (bound_by_ok rj n X OX NX) as (X' & BX). destruct (bound_by_ok rj n Y OY NY) as (Y' & BY). destruct (bound_by_ok rj n Z OZ NZ) as (Z' & BZ).
        exists (X', Y', Z'). rewrite (proj1 BX). cbn [bind]. rewrite (proj1 BY). cbn [bind]. rewrite (proj1 BZ). cbn [bind]. split; [reflexivity|repeat split; assumption || apply BX || apply BY || apply BZ]. }
      rewrite E2. cbn [bind]. rewrite uni_evaluate_len by lia. cbn [bind].
      destruct (IH par1 C1 sq1 (peval p rj) tr1) as (polys & r & par' & C' & sq' & tr' & Er & Lr & Lpo & AP & AC & AS & V).
      { split; [split; apply BC|]. split.
        - intros X Y Hx. destruct (Forall2_In_r _ _ _ _ R1 Hx) as ([X0 Y0] & _ & BX & BY). cbn [fst snd] in *. split; split; (apply BX || apply BY).
        - intros X Y Z Hx. destruct (Forall2_In_r _ _ _ _ R2 Hx) as ([[X0 Y0] Z0] & _ & BX & BY & BZ). cbn [fst snd] in *. repeat split; (apply BX || apply BY || apply BZ). }
      { rewrite <- (F2_length _ _ _ R1), <- (F2_length _ _ _ R2). exact LC. }
      { rewrite P. symmetry. apply gsumt_bound. apply groups_bound; assumption. }
      destruct (sc_step p polys e 3 tr Lp ltac:(lia) S01) as (cp & Ec & Ev).
      rewrite Ec. cbn [bind]. rewrite Er. cbn [bind].
      exists (cp :: polys), (rj :: r), par', C', sq', tr'. split; [reflexivity|]. do 2 (split; [cbn [length]; congruence|]).
      split; [revert AP; eapply Forall2_comp; [|exact R1]; intros x y z [X1 X2] [Y1 Y2]; split; eapply at_pt_cons; eassumption|].
      split; [eapply at_pt_cons; eassumption|].
      split; [revert AS; eapply Forall2_comp; [|exact R2]; intros x y z (X1 & X2 & X3) (Y1 & Y2 & Y3); repeat split; eapply at_pt_cons; eassumption|].
      rewrite Ev. fold tr1. fold rj. rewrite V. cbn [bind]. do 3 f_equal. unfold final_val. f_equal.
      symmetry. apply Forall2_map_eq. generalize (groups_bound rj n _ _ _ _ _ _ R1 BC R2). apply Forall2_impl'.
      intros ps ps' _ _ B. f_equal. apply Forall2_map_eq. revert B. apply Forall2_impl'. intros q q' _ _ Bq. symmetry. apply (mle_bound rj n); assumption.
  Qed.
End Complete.
