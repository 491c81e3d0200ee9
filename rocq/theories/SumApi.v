(** Statements about sum-check in the form used by PropsSum.v. *)
From Coq Require Import String List Arith ZArith Lia Bool Field Ring.
From Verif Require Import Base ListAux Field Zq Vec MathModel PolyModel PolySpec PolyProofs PolyImp CommitModel SigmaModel CommitSpec CommitProofs SigmaProofs SigmaApi SumModel SumSpec SumProofs SumComplete SumZk.
Import ListNotations.
Local Open Scope fld_scope.

Lemma api_sc_sound (K : Fld) (G : Mod K) (E : Enc G) (H : log E -> K) polys claim n d (tr : log E) e r tr' (f : list K -> K) :
  sc_verify H polys claim n d tr = Ok (e, r, tr') -> deg_each d n f -> f r = e ->
  length r = n /\
  (hsum n f = claim \/
   exists i p ds tri before after, (i < n)%nat /\ length p = S d /\ (length ds <= S d)%nat /\ nonzero ds /\
     (forall x, peval ds x = peval p x - hsum (n - i - 1) (fun b => f (firstn i r ++ x :: b))) /\
     let hist := MChal "challenge_nextround" :: MText "poly" "UniPoly_end" :: rev (map (MScalar "coeff") p) ++ MText "poly" "UniPoly_begin" :: tri in
     tri = before ++ tr /\ tr' = after ++ hist /\ nth i r 0 = H hist /\ peval ds (nth i r 0) = 0).
Proof.
  intros X D F. unfold sc_verify in X. destruct (Nat.eqb_spec (length polys) n) as [<-|]; [|discriminate].
  split; [eapply sc_rounds_length, X|].
  destruct (sc_sound H _ _ _ _ _ _ _ _ X D F) as [T|(i & p & ds & tri & A1 & A2 & A3 & A4 & A5 & A6 & A7 & (bf & A8) & (af & A9))]; [left; exact T|].
  right. exists i, p, ds, tri, bf, af. repeat split; assumption.
Qed.
Lemma api_few_roots (K : Fld) (cs : list K) : nonzero cs ->
  forall l, NoDup l -> (forall x, In x l -> peval cs x = 0) -> (length l < length cs)%nat.
Proof. intros N l D R. exact (few_roots l cs N D R). Qed.

Section Api.
  Context {K : Fld} {G : Mod K} {E : Enc G}.
  Variable H : log E -> K.
  Hypothesis two : (of_nat 2 : K) <> 0.
  Hypothesis three : (of_nat 3 : K) <> 0.
  Add Field Ksa : (fth K).
  Local Notation cmp := (CommitModel.compress E).

  Lemma line_on3 d (f : K -> K -> K -> K) :
    (forall a a' b b' c c', exists cs, length cs = S d /\ forall t, f (a + t * a') (b + t * b') (c + t * c') = peval cs t) -> line_deg d 3 (on3 f).
  Proof.
    intros D [|a [|b [|c [|]]]] [|a' [|b' [|c' [|]]]] L L'; try discriminate.
    destruct (D a (a' - a) b (b' - b) c (c' - c)) as (cs & A & B). exists cs. split; [exact A|exact B].
  Qed.
  Lemma line_on2 d (f : K -> K -> K) :
    (forall a a' b b', exists cs, length cs = S d /\ forall t, f (a + t * a') (b + t * b') = peval cs t) -> line_deg d 2 (on2 f).
  Proof.
    intros D [|a [|b [|]]] [|a' [|b' [|]]] L L'; try discriminate.
    destruct (D a (a' - a) b (b' - b)) as (cs & A & B). exists cs. split; [exact A|exact B].
  Qed.
  Lemma line_on4 d (f : K -> K -> K -> K -> K) :
    (forall a a' b b' c c' e e', exists cs, length cs = S d /\ forall t, f (a + t * a') (b + t * b') (c + t * c') (e + t * e') = peval cs t) -> line_deg d 4 (on4 f).
  Proof.
    intros D [|a [|b [|c [|e [|]]]]] [|a' [|b' [|c' [|e' [|]]]]] L L'; try discriminate.
    destruct (D a (a' - a) b (b' - b) c (c' - c) e (e' - e)) as (cs & A & B). exists cs. split; [exact A|exact B].
  Qed.

  Lemma fin_values r (ps ps' : list (dense K)) : fam 0 ps' -> Forall2 (fun p p' => nth 0 (live p') 0 = mle (live p) r) ps ps' ->
    mapM (fun p => dense_index p 0) ps' = Ok (map (fun p => mle (live p) r) ps) /\
    map (fun p => nth 0 (live p) 0) ps' = map (fun p => mle (live p) r) ps.
  Proof.
    intros [_ F] M. assert (A : map (fun p => nth 0 (live p) 0) ps' = map (fun p => mle (live p) r) ps).
    { symmetry. apply Forall2_map_eq. revert M. apply Forall2_impl'. intros a b _ _ X. symmetry. exact X. }
    split; [|exact A]. rewrite <- A. apply mapM_ok. intros p Hp. destruct (F p Hp) as [O N]. rewrite <- (mle_nil K). apply live_index; assumption.
  Qed.

  Lemma api_cubic (f : K -> K -> K -> K) n (A B C : dense K) claim (tr : log E) :
    (forall a a' b b' c c', exists cs, length cs = 4%nat /\ forall t, f (a + t * a') (b + t * b') (c + t * c') = peval cs t) ->
    dense_ok A -> dense_ok B -> dense_ok C -> dnum_vars A = n -> dnum_vars B = n -> dnum_vars C = n ->
    claim = sumn (2 ^ n) (fun i => f (nth i (live A) 0) (nth i (live B) 0) (nth i (live C) 0)) ->
    exists polys r tr', length r = n /\
      prove_cubic H claim n A B C f tr = Ok (polys, r, [mle (live A) r; mle (live B) r; mle (live C) r], tr') /\
      sc_verify H polys claim n 3 tr = Ok (f (mle (live A) r) (mle (live B) r) (mle (live C) r), r, tr').
  Proof.
    intros D OA OB OC NA NB NC Ec. apply line_on3 in D.
    assert (F : fam n [A; B; C]) by (split; [congruence|intros p [<-|[<-|[<-|[]]]]; split; assumption]).
    destruct (cubic_rounds_ok H two three (on3 f) n [A; B; C] claim tr F D Ec) as (polys & r & ps' & tr' & Er & Lr & Lp & F' & M & V).
    destruct (fin_values r _ ps' F' M) as [X Y]. exists polys, r, tr'. split; [exact Lr|].
    unfold prove_cubic. rewrite Er. cbn [bind]. rewrite X. split; [reflexivity|].
    unfold sc_verify. rewrite Lp, Nat.eqb_refl, V, Y. reflexivity.
  Qed.

  Lemma api_batched (f : K -> K -> K -> K) n (par : list (dense K * dense K)) (C : dense K) (sq : list (dense K * dense K * dense K)) coeffs claim (tr : log E) :
    (forall a a' b b' c c', exists cs, length cs = 4%nat /\ forall t, f (a + t * a') (b + t * b') (c + t * c') = peval cs t) ->
    (dense_ok C /\ dnum_vars C = n) ->
    (forall A B, In (A, B) par -> (dense_ok A /\ dnum_vars A = n) /\ (dense_ok B /\ dnum_vars B = n)) ->
    (forall A B C, In (A, B, C) sq -> (dense_ok A /\ dnum_vars A = n) /\ (dense_ok B /\ dnum_vars B = n) /\ (dense_ok C /\ dnum_vars C = n)) ->
    (length par + length sq <= length coeffs)%nat ->
    claim = dot (map (fun '(A, B) => sumn (2 ^ n) (fun i => f (nth i (live A) 0) (nth i (live B) 0) (nth i (live C) 0))) par ++
                 map (fun '(A, B, C) => sumn (2 ^ n) (fun i => f (nth i (live A) 0) (nth i (live B) 0) (nth i (live C) 0))) sq) coeffs ->
    exists polys r tr', length r = n /\
      prove_cubic_batched H claim n par C sq coeffs f tr =
        Ok (polys, r, (map (fun x => mle (live (fst x)) r) par, map (fun x => mle (live (snd x)) r) par, mle (live C) r),
            (map (fun x => mle (live (fst (fst x))) r) sq, map (fun x => mle (live (snd (fst x))) r) sq, map (fun x => mle (live (snd x)) r) sq), tr') /\
      sc_verify H polys claim n 3 tr =
        Ok (dot (map (fun '(A, B) => f (mle (live A) r) (mle (live B) r) (mle (live C) r)) par ++
                 map (fun '(A, B, C) => f (mle (live A) r) (mle (live B) r) (mle (live C) r)) sq) coeffs, r, tr').
  Proof.
    intros D OC FP FS LC Ec. apply line_on3 in D.
    assert (Eg : forall (h : list (dense K) -> K), map h (groups par C sq) = map (fun x => h (pl x C)) par ++ map (fun x => h (tl3 x)) sq).
    { intro h. unfold groups. rewrite map_app, !map_map. reflexivity. }
    destruct (batch_rounds_ok H two three f coeffs n D par C sq claim tr (conj OC (conj FP FS)) LC) as (polys & r & par' & C' & sq' & tr' & Er & Lr & Lp & AP & AC & AS & V).
    { rewrite Ec. unfold gsumt. f_equal. rewrite Eg. f_equal; apply map_ext; [intros [A B]|intros [[A B] C0]]; reflexivity. }
    exists polys, r, tr'. split; [exact Lr|]. unfold prove_cubic_batched. rewrite Er. cbn [bind].
    assert (MM : forall T (sel : T -> dense K) (l l' : list T), Forall2 (fun x y => at_pt r (sel x) (sel y)) l l' ->
      mapM (fun p => dense_index (sel p) 0) l' = Ok (map (fun x => mle (live (sel x)) r) l)).
    { intros T sel l l' R. induction R as [|x y l l' X R IH]; [reflexivity|]. cbn [mapM map]. rewrite X. cbn [bind]. rewrite IH. reflexivity. }
    rewrite (MM _ fst par par') by (revert AP; apply Forall2_impl'; intros a b _ _ X; apply X). cbn [bind].
    rewrite (MM _ snd par par') by (revert AP; apply Forall2_impl'; intros a b _ _ X; apply X). cbn [bind].
    rewrite AC. cbn [bind].
    rewrite (MM _ (fun x => fst (fst x)) sq sq') by (revert AS; apply Forall2_impl'; intros a b _ _ X; apply X). cbn [bind].
    rewrite (MM _ (fun x => snd (fst x)) sq sq') by (revert AS; apply Forall2_impl'; intros a b _ _ X; apply X). cbn [bind].
    rewrite (MM _ snd sq sq') by (revert AS; apply Forall2_impl'; intros a b _ _ X; apply X). cbn [bind].
    split; [reflexivity|]. unfold sc_verify. rewrite Lp, Nat.eqb_refl, V. do 3 f_equal. unfold final_val. f_equal. rewrite Eg.
    f_equal; apply map_ext; [intros [A B]|intros [[A B] C0]]; reflexivity.
  Qed.

  Lemma mk_cubic : mk_ok 3 (@cubic_poly K).
  Proof. intros g e P Ee. exact (cubic_poly_ok two three g e P Ee). Qed.
  Lemma mk_quad : mk_ok 2 (@quad_poly K).
  Proof. intros g e P Ee. exact (quad_poly_ok two g e _ P Ee). Qed.

  Lemma api_quad (f : K -> K -> K) n (A B : dense K) claim blind (g1 gN : gens G) (tr tape : log E) :
    (forall a a' b b', exists cs, length cs = 3%nat /\ forall t, f (a + t * a') (b + t * b') = peval cs t) ->
    gens_ok g1 -> gn g1 = 1%nat -> gens_ok gN -> gn gN = 3%nat -> (1 <= n)%nat ->
    dense_ok A -> dense_ok B -> dnum_vars A = n -> dnum_vars B = n ->
    claim = sumn (2 ^ n) (fun i => f (nth i (live A) 0) (nth i (live B) 0)) ->
    exists pf r ps bl tr' tape', length r = n /\
      prove_quad H claim blind n A B f g1 gN tr tape = Ok (pf, r, ps, [mle (live A) r; mle (live B) r], bl, tr', tape') /\
      zk_verify H pf (cmp (ped1 g1 claim blind)) n 2 g1 gN tr =
        Ok (cmp (ped1 g1 (f (mle (live A) r) (mle (live B) r)) bl), r, tr').
  Proof.
    intros D H1 N1 HN NN Ln OA OB NA NB Ec. apply line_on2 in D.
    assert (F : fam n [A; B]) by (split; [congruence|intros p [<-|[<-|[]]]; split; assumption]).
    destruct (zk_prove_ok H quad_poly (on2 f) 2 g1 gN ltac:(lia) mk_quad H1 N1 HN NN n [A; B] claim blind tr tape Ln F D Ec)
      as (pf & r & ps' & bl & tr' & tape' & Ep & Lr & F' & M & V).
    destruct (fin_values r _ ps' F' M) as [X Y]. exists pf, r, ps', bl, tr', tape'. split; [exact Lr|].
    unfold prove_quad. rewrite Ep. cbn [bind]. rewrite X. split; [reflexivity|]. rewrite V, Y. reflexivity.
  Qed.
  Lemma api_additive (f : K -> K -> K -> K -> K) n (A B C D : dense K) claim blind (g1 gN : gens G) (tr tape : log E) :
    (forall a a' b b' c c' e e', exists cs, length cs = 4%nat /\ forall t, f (a + t * a') (b + t * b') (c + t * c') (e + t * e') = peval cs t) ->
    gens_ok g1 -> gn g1 = 1%nat -> gens_ok gN -> gn gN = 4%nat -> (1 <= n)%nat ->
    dense_ok A -> dense_ok B -> dense_ok C -> dense_ok D -> dnum_vars A = n -> dnum_vars B = n -> dnum_vars C = n -> dnum_vars D = n ->
    claim = sumn (2 ^ n) (fun i => f (nth i (live A) 0) (nth i (live B) 0) (nth i (live C) 0) (nth i (live D) 0)) ->
    exists pf r ps bl tr' tape', length r = n /\
      prove_cubic_additive H claim blind n A B C D f g1 gN tr tape =
        Ok (pf, r, ps, [mle (live A) r; mle (live B) r; mle (live C) r; mle (live D) r], bl, tr', tape') /\
      (forall p, In p ps -> dlen p = 1%nat) /\
      zk_verify H pf (cmp (ped1 g1 claim blind)) n 3 g1 gN tr =
        Ok (cmp (ped1 g1 (f (mle (live A) r) (mle (live B) r) (mle (live C) r) (mle (live D) r)) bl), r, tr').
  Proof.
    intros P H1 N1 HN NN Ln OA OB OC OD NA NB NC ND Ec. apply line_on4 in P.
    assert (F : fam n [A; B; C; D]) by (split; [congruence|intros p [<-|[<-|[<-|[<-|[]]]]]; split; assumption]).
    destruct (zk_prove_ok H cubic_poly (on4 f) 3 g1 gN ltac:(lia) mk_cubic H1 N1 HN NN n [A; B; C; D] claim blind tr tape Ln F P Ec)
      as (pf & r & ps' & bl & tr' & tape' & Ep & Lr & F' & M & V).
    destruct (fin_values r _ ps' F' M) as [X Y]. exists pf, r, ps', bl, tr', tape'. split; [exact Lr|].
    unfold prove_cubic_additive. rewrite Ep. cbn [bind]. rewrite X. split; [reflexivity|]. split.
    - intros p Hp. destruct F' as [_ F']. destruct (F' p Hp) as [[O _] N]. rewrite O, N. reflexivity.
    - rewrite V, Y. reflexivity.
  Qed.
End Api.

(** the combinations used in the code *)
Section Combos.
  Context {K : Fld}.
  Add Field Ksc : (fth K).
  Lemma prod3_cubic : forall a a' b b' c c' : K, exists cs, length cs = 4%nat /\ forall t, (a + t * a') * (b + t * b') * (c + t * c') = peval cs t.
  Proof.
    intros. exists [a * b * c; a' * b * c + a * b' * c + a * b * c'; a' * b' * c + a' * b * c' + a * b' * c'; a' * b' * c'].
    split; [reflexivity|]. intro t. rewrite !peval_cons, peval_nil. ring.
  Qed.
  Lemma add_cubic : forall a a' b b' c c' e e' : K, exists cs, length cs = 4%nat /\ forall t, (a + t * a') * ((b + t * b') * (c + t * c') - (e + t * e')) = peval cs t.
  Proof.
    intros. exists [a * (b * c - e); a' * (b * c - e) + a * (b' * c + b * c' - e'); a' * (b' * c + b * c' - e') + a * b' * c'; a' * b' * c'].
    split; [reflexivity|]. intro t. rewrite !peval_cons, peval_nil. ring.
  Qed.
  Lemma prod2_quad : forall a a' b b' : K, exists cs, length cs = 3%nat /\ forall t, (a + t * a') * (b + t * b') = peval cs t.
  Proof.
    intros. exists [a * b; a' * b + a * b'; a' * b'].
    split; [reflexivity|]. intro t. rewrite !peval_cons, peval_nil. ring.
  Qed.
  Lemma code_combos :
    (forall a a' b b' c c' : K, exists cs, length cs = 4%nat /\ forall t, (a + t * a') * (b + t * b') * (c + t * c') = peval cs t) /\
    (forall a a' b b' c c' e e' : K, exists cs, length cs = 4%nat /\ forall t, (a + t * a') * ((b + t * b') * (c + t * c') - (e + t * e')) = peval cs t) /\
    (forall a a' b b' : K, exists cs, length cs = 3%nat /\ forall t, (a + t * a') * (b + t * b') = peval cs t).
  Proof. exact (conj prod3_cubic (conj add_cubic prod2_quad)). Qed.
End Combos.

Section Case.
  Add Field Ffp : (fth Fp).
  Lemma case28_deg : deg_each 1 2 (fun r : list Fp => nth 0 r 0 * nth 1 r 0).
  Proof.
    intros [|a [|a' pre]] [|b [|b' post]] L; cbn [length] in L; try lia.
    - exists [0; b]. split; [cbn; lia|]. intro x. rewrite !peval_cons, peval_nil. cbn [nth app]. ring.
    - exists [0; a]. split; [cbn; lia|]. intro x. rewrite !peval_cons, peval_nil. cbn [nth app]. ring.
  Qed.
End Case.

Lemma two_three_fp : (of_nat 2 : Fp) <> 0 /\ (of_nat 3 : Fp) <> 0.
Proof.
  split; intro X; [assert (Y : feqb (of_nat 2 : Fp) 0 = false) by (vm_compute; reflexivity)|assert (Y : feqb (of_nat 3 : Fp) 0 = false) by (vm_compute; reflexivity)];
    rewrite X in Y; destruct (feqb_spec Fp 0 0); congruence.
Qed.
