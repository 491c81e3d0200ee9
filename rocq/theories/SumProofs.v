(** Sum-check: soundness of the plain verifier. *)
From Coq Require Import String List Arith Lia Bool Field Ring.
From Verif Require Import Base ListAux Field Vec MathModel PolyModel PolySpec PolyProofs PolyImp CommitModel SigmaModel SumModel SumSpec.
Import ListNotations.

Section Sound.
  Context {K : Fld} {G : Mod K} {E : Enc G}.
  Variable H : log E -> K.
  Local Open Scope fld_scope.
  Add Field Kss : (fth K).

  (** sum and difference of coefficient lists *)
  Fixpoint padd (s : K) (a b : list K) : list K :=
    match a, b with
    | [], _ => map (fmul s) b
    | _, [] => a
    | x :: a', y :: b' => (x + s * y) :: padd s a' b'
    end.
  Lemma peval_scale s (b : list K) x : peval (map (fmul s) b) x = s * peval b x.
  Proof. induction b as [|y b IH]; cbn [map]; rewrite ?peval_nil, ?peval_cons; [ring|]. rewrite IH. ring. Qed.
  Lemma peval_padd s a : forall b x, peval (padd s a b) x = peval a x + s * peval b x.
  Proof.
    induction a as [|u a IH]; intros [|v b] x; cbn [padd]; rewrite ?peval_scale, ?peval_cons, ?peval_nil; try (cbn [map]; rewrite ?peval_cons, ?peval_scale, ?peval_nil; ring).
    rewrite IH. ring.
  Qed.
  Lemma padd_length s a : forall b, length (padd s a b) = Nat.max (length a) (length b).
  Proof. induction a as [|u a IH]; intros [|v b]; cbn [padd length]; rewrite ?map_length; cbn [length]; [lia..|]. rewrite IH. lia. Qed.
  Lemma nonzero_dec (cs : list K) : nonzero cs \/ forall x, peval cs x = 0.
  Proof.
    induction cs as [|c cs IH]; [right; intro; apply peval_nil|].
    destruct (feqb_spec K c 0) as [->|N].
    - destruct IH as [(d & Hd & N)|IH]; [left; exists d; split; [right|]; assumption|].
      right. intro x. rewrite peval_cons, IH. ring.
    - left. exists c. split; [left; reflexivity|exact N].
  Qed.
  Lemma hsum_ext n : forall f g : list K -> K, (forall b, length b = n -> f b = g b) -> hsum n f = hsum n g.
  Proof.
    induction n; intros f g A; cbn [hsum]; [apply A; reflexivity|].
    f_equal; apply IHn; intros b Hb; apply A; cbn; congruence.
  Qed.
  Lemma hsum_poly d m n : forall f : list K -> K, deg_each d n f -> forall pre, (length pre + S m = n)%nat ->
    exists cs, (length cs <= S d)%nat /\ forall x, hsum m (fun b => f (pre ++ x :: b)) = peval cs x.
  Proof.
    (* generalise: sum over the last m variables of f with x in the middle *)
    assert (A : forall m (f : list K -> K) pre mid, deg_each d n f -> (length pre + S (length mid + m) = n)%nat ->
      exists cs, (length cs <= S d)%nat /\ forall x, hsum m (fun b => f (pre ++ x :: mid ++ b)) = peval cs x).
    { clear m. induction m; intros f pre mid D L; cbn [hsum].
      - rewrite Nat.add_0_r in L. destruct (D pre mid L) as (cs & Lc & Ec). exists cs. split; [exact Lc|].
        intro x. rewrite app_nil_r. apply Ec.
      - assert (L0 : forall v, (length pre + S (length (mid ++ [v]) + m) = n)%nat) by (intro v; rewrite app_length; cbn; lia).
        destruct (IHm f pre (mid ++ [0]) D (L0 _)) as (c0 & Lc0 & E0).
        destruct (IHm f pre (mid ++ [1]) D (L0 _)) as (c1 & Lc1 & E1).
        exists (padd 1 c0 c1). split; [rewrite padd_length; lia|].
        intro x. rewrite peval_padd, <- E0, <- E1. cbn [hsum].
        rewrite (hsum_ext m (fun b => f (pre ++ x :: (mid ++ [0]) ++ b)) (fun b => f (pre ++ x :: mid ++ 0 :: b))).
        2: { intros b _. rewrite <- app_assoc. reflexivity. }
        rewrite (hsum_ext m (fun b => f (pre ++ x :: (mid ++ [1]) ++ b)) (fun b => f (pre ++ x :: mid ++ 1 :: b))).
        2: { intros b _. rewrite <- app_assoc. reflexivity. }
        ring. }
    intros f D pre L. exact (A m f pre [] D L).
  Qed.

  (** what a run of the rounds establishes for the first of them *)
  Lemma sc_rounds_inv c polys e d (tr : log E) res : sc_rounds H (c :: polys) e d tr = Ok res ->
    exists p r ef rs tr', res = (ef, r :: rs, tr') /\ PolyModel.decompress c e = Ok p /\ length p = S d /\
      peval p 0 + peval p 1 = e /\ r = H (MChal "challenge_nextround" :: app_unipoly "poly" p tr) /\
      sc_rounds H polys (peval p r) d (MChal "challenge_nextround" :: app_unipoly "poly" p tr) = Ok (ef, rs, tr').
  Proof.
    cbn [sc_rounds]. destruct c as [|c0 ct]; [discriminate|].
    destruct (decompress_sum K c0 ct e) as (p & Ed & Lp & Es & _). rewrite Ed. cbn [bind].
    destruct p as [|p0 pt]; [discriminate|]. cbn [degree bind].
    destruct (Nat.eqb_spec (length pt) d) as [Ld|]; [|discriminate].
    unfold eval_at_zero. cbn [idx nth_error of_opt bind].
    destruct (feqb_spec K (p0 + eval_at_one (p0 :: pt)) e) as [Ee|]; [|discriminate].
    unfold challenge. rewrite uni_evaluate_ok. cbn [bind].
    set (r := H _). destruct (sc_rounds H polys _ d _) as [[[ef rs] tr']| |] eqn:Er; cbn [bind]; try discriminate.
    intro X. injection X as <-. exists (p0 :: pt), r, ef, rs, tr'. repeat split; try assumption.
    cbn [length]. congruence.
  Qed.

  Lemma sc_rounds_length polys : forall e d (tr : log E) ef r tr', sc_rounds H polys e d tr = Ok (ef, r, tr') -> length r = length polys.
  Proof.
    induction polys as [|c polys IH]; intros e d tr ef r tr' X.
    - cbn in X. injection X as <- <- <-. reflexivity.
    - destruct (sc_rounds_inv _ _ _ _ _ _ X) as (p & r0 & ef' & rs & tr1 & E1 & _ & _ & _ & _ & Er).
      injection E1 as <- -> <-. cbn [length]. rewrite (IH _ _ _ _ _ _ Er). reflexivity.
  Qed.

  (** the transcript only grows *)
  Lemma sc_rounds_log polys : forall e d (tr : log E) ef r tr', sc_rounds H polys e d tr = Ok (ef, r, tr') -> exists after, tr' = after ++ tr.
  Proof.
    induction polys as [|c polys IH]; intros e d tr ef r tr' X.
    - cbn in X. injection X as <- <- <-. exists []. reflexivity.
    - destruct (sc_rounds_inv _ _ _ _ _ _ X) as (p & r0 & ef' & rs & tr1 & E1 & _ & _ & _ & _ & Er).
      injection E1 as <- -> <-. destruct (IH _ _ _ _ _ _ Er) as (af & ->).
      exists (af ++ MChal "challenge_nextround" :: MText "poly" "UniPoly_end" :: rev (map (MScalar "coeff") p) ++ [MText "poly" "UniPoly_begin"]).
      unfold app_unipoly. rewrite <- app_assoc. cbn [app]. rewrite <- app_assoc. reflexivity.
  Qed.

  Lemma deg_each_cons d n (f : list K -> K) r : deg_each d (S n) f -> deg_each d n (fun b => f (r :: b)).
  Proof. intros D pre post L. exact (D (r :: pre) post ltac:(cbn; lia)). Qed.

  Lemma sc_sound polys : forall e d (tr : log E) ef r tr' f,
    sc_rounds H polys e d tr = Ok (ef, r, tr') -> deg_each d (length polys) f -> f r = ef ->
    hsum (length polys) f = e \/
    exists i p ds tri, (i < length polys)%nat /\ length p = S d /\ (length ds <= S d)%nat /\ nonzero ds /\
      (forall x, peval ds x = peval p x - hsum (length polys - i - 1) (fun b => f (firstn i r ++ x :: b))) /\
      nth i r 0 = H (MChal "challenge_nextround" :: app_unipoly "poly" p tri) /\ peval ds (nth i r 0) = 0 /\
      (exists before, tri = before ++ tr) /\ (exists after, tr' = after ++ MChal "challenge_nextround" :: app_unipoly "poly" p tri).
  Proof.
    induction polys as [|c polys IH]; intros e d tr ef r tr' f X D F.
    - cbn in X. injection X as <- <- <-. left. exact F.
    - destruct (sc_rounds_inv _ _ _ _ _ _ X) as (p & r0 & ef' & rs & tr1 & E1 & Ed & Lp & Es & Er0 & Er).
      injection E1 as <- -> <-. cbn [length] in *.
      destruct (hsum_poly d (length polys) _ f D [] eq_refl) as (qs & Lq & Eq). cbn [app] in Eq.
      set (ds := padd (0 - 1) p qs).
      assert (Eds : forall x, peval ds x = peval p x - hsum (length polys) (fun b => f (x :: b))).
      { intro x. unfold ds. rewrite peval_padd, <- Eq. ring. }
      destruct (nonzero_dec ds) as [N|Z].
      + destruct (feqb_spec K (peval ds r0) 0) as [R|R].
        * right. exists 0%nat, p, ds, tr. cbn [firstn app nth]. rewrite Nat.sub_0_r. replace (S (length polys) - 1)%nat with (length polys) by lia.
          assert (length ds <= S d)%nat by (unfold ds; rewrite padd_length; lia).
          repeat split; try assumption; try lia; [exists []; reflexivity|]. exact (sc_rounds_log _ _ _ _ _ _ _ Er).
        * destruct (IH _ _ _ _ _ _ (fun b => f (r0 :: b)) Er (deg_each_cons _ _ _ _ D) F) as [A|A].
          -- exfalso. apply R. rewrite Eds, A. ring.
          -- right. destruct A as (i & p' & ds' & tri & Li & Lp' & Lds & N' & E' & Ec & R' & (bf & Bf) & Af).
             exists (S i), p', ds', tri. cbn [firstn app nth].
             replace (S (length polys) - S i - 1)%nat with (length polys - i - 1)%nat by lia.
             repeat split; try assumption; try lia.
             exists (bf ++ MChal "challenge_nextround" :: MText "poly" "UniPoly_end" :: rev (map (MScalar "coeff") p) ++ [MText "poly" "UniPoly_begin"]).
             rewrite Bf. unfold app_unipoly. rewrite <- app_assoc. cbn [app]. rewrite <- app_assoc. reflexivity.
      + left. cbn [hsum]. rewrite <- Es.
        assert (P : forall x, peval p x = hsum (length polys) (fun b => f (x :: b))).
        { intro x. transitivity (peval ds x + hsum (length polys) (fun b => f (x :: b))); [rewrite Eds; ring|]. rewrite Z. ring. }
        rewrite !P. ring.
  Qed.

  (** a polynomial with a nonzero coefficient has fewer roots than coefficients *)
  Fixpoint synth (a : K) (cs : list K) : list K :=
    match cs with [] => [] | [_] => [] | _ :: t => peval t a :: synth a t end.
  Lemma synth_length a (cs : list K) : length (synth a cs) = (length cs - 1)%nat.
  Proof. induction cs as [|c [|c1 cs] IH]; [reflexivity..|]. change (synth a (c :: c1 :: cs)) with (peval (c1 :: cs) a :: synth a (c1 :: cs)). cbn [length] in *. lia. Qed.
  Lemma synth_eval a (cs : list K) x : peval cs x = peval cs a + (x - a) * peval (synth a cs) x.
  Proof.
    induction cs as [|c [|c1 cs] IH].
    - rewrite !peval_nil. ring.
    - cbn [synth]. rewrite !peval_cons, !peval_nil. ring.
    - change (synth a (c :: c1 :: cs)) with (peval (c1 :: cs) a :: synth a (c1 :: cs)).
      rewrite (peval_cons K c), (peval_cons K c _ a), (peval_cons K (peval _ _)), IH. ring.
  Qed.
  Lemma synth_zero a (cs : list K) : (forall c, In c (synth a cs) -> c = 0) -> forall c, In c (tl cs) -> c = 0.
  Proof.
    induction cs as [|c [|c1 cs] IH]; [intros _ ? []|intros _ ? []|].
    change (synth a (c :: c1 :: cs)) with (peval (c1 :: cs) a :: synth a (c1 :: cs)). intros A.
    assert (B : forall x, In x (tl (c1 :: cs)) -> x = 0) by (apply IH; intros x Hx; apply A; right; exact Hx).
    cbn [tl] in *. assert (C1 : c1 = 0).
    { assert (Z : peval cs a = 0).
      { destruct (nonzero_dec cs) as [(y & Hy & N)|Z]; [exfalso; apply N, B, Hy|apply Z]. }
      rewrite <- (A (peval (c1 :: cs) a) (or_introl eq_refl)), peval_cons, Z. ring. }
    intros x [<-|Hx]; [exact C1|apply B, Hx].
  Qed.
  Lemma few_roots l : forall cs : list K, nonzero cs -> NoDup l -> (forall x, In x l -> peval cs x = 0) -> (length l < length cs)%nat.
  Proof.
    induction l as [|a l IH]; intros cs N D R.
    - destruct N as (c & Hc & _). destruct cs; [destruct Hc|cbn; lia].
    - assert (Ra : peval cs a = 0) by (apply R; left; reflexivity).
      assert (Nq : nonzero (synth a cs)).
      { destruct N as (c & Hc & N).
        assert (Dz : nonzero (synth a cs) \/ forall c, In c (synth a cs) -> c = 0).
        { generalize (synth a cs). intro q. induction q as [|y q IHq]; [right; intros ? []|].
          destruct (feqb_spec K y 0) as [->|Ny]; [|left; exists y; split; [left; reflexivity|exact Ny]].
          destruct IHq as [(z & Hz & Nz)|A]; [left; exists z; split; [right; exact Hz|exact Nz]|].
          right. intros z [<-|Hz]; [reflexivity|apply A, Hz]. }
        destruct Dz as [Dz|Dz]; [exact Dz|exfalso]. pose proof (synth_zero a cs Dz) as T.
        destruct cs as [|c0 cs]; [destruct Hc|]. cbn [tl] in T.
        assert (Z : peval cs a = 0).
        { destruct (nonzero_dec cs) as [(y & Hy & Ny)|Z]; [exfalso; apply Ny, T, Hy|apply Z]. }
        destruct Hc as [<-|Hc]; [|apply N, T, Hc]. apply N.
        transitivity (peval (c0 :: cs) a); [|exact Ra]. rewrite peval_cons, Z. ring. }
      inversion_clear D as [|? ? Nin D'].
      specialize (IH (synth a cs) Nq D'). rewrite synth_length in IH. cbn [length].
      assert (length l < length cs - 1)%nat; [|lia]. apply IH. intros x Hx.
      assert (Px : peval cs x = 0) by (apply R; right; exact Hx).
      rewrite (synth_eval a cs x), Ra in Px.
      assert (Q : (x - a) * peval (synth a cs) x = 0) by (transitivity (0 + (x - a) * peval (synth a cs) x); [ring|exact Px]).
      destruct (fmul_eq_0 K _ _ Q) as [W|W]; [|exact W].
      exfalso. apply Nin. pose proof (proj1 (fsub_eq_0 K _ _) W) as W2. rewrite <- W2. exact Hx.
  Qed.
End Sound.
