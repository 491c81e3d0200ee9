(** How many challenges can hide a wrong read. *)
From Coq Require Import List Arith Lia Bool Field Ring Permutation.
From Verif Require Import Base ListAux Field Vec PolyModel PolySpec PolyProofs SumSpec SumProofs SparSpec SparMem.
Import ListNotations.

Section Sound.
  Context {K : Fld}.
  Local Open Scope fld_scope.
  Add Field Kso : (fth K).

  (** the coefficients of the product of the x - t *)
  Fixpoint rp (X : list K) : list K := match X with [] => [1] | x :: X' => padd (0 - 1) (padd x [] (rp X')) (0 :: rp X') end.
  Lemma rp_eval X t : peval (rp X) t = fprod (map (fun x => x - t) X).
  Proof.
    induction X as [|x X IH]; cbn [rp map].
    - rewrite peval_cons, peval_nil, fprod_nil. ring.
    - rewrite !peval_padd, peval_cons, peval_nil, fprod_cons, IH. ring.
  Qed.
  Lemma rp_length X : length (rp X) = S (length X).
  Proof. induction X as [|x X IH]; [reflexivity|]. cbn [rp]. rewrite !padd_length. cbn [length]. rewrite IH. lia. Qed.
  Lemma fprod_zero (l : list K) : fprod l = 0 -> In 0 l.
  Proof.
    induction l as [|x l IH]; [rewrite fprod_nil; intro X; destruct (F_1_neq_0 (fth K) X)|]. rewrite fprod_cons. intro X.
    destruct (feqb_spec K x 0) as [->|N]; [left; reflexivity|right; apply IH].
    transitivity (finv x * (x * fprod l)); [field; exact N|rewrite X; ring].
  Qed.
  Lemma fprod_in (l : list K) : In 0 l -> fprod l = 0.
  Proof. induction l as [|x l IH]; [intros []|]. rewrite fprod_cons. intros [->|I]; [ring|]. rewrite IH by exact I. ring. Qed.
  Lemma feq_dec (x y : K) : {x = y} + {x <> y}.
  Proof. destruct (feqb x y) eqn:Q; [left; apply feqb_true, Q|right]. intros ->. rewrite Field.feqb_refl in Q. discriminate. Qed.

  Lemma remove_ge (x : K) l : NoDup l -> (length l <= S (length (remove feq_dec x l)))%nat.
  Proof.
    induction 1 as [|y l N D IH]; cbn [length remove]; [lia|]. destruct (feq_dec x y) as [->|]; [|cbn [length]; lia].
    rewrite (notin_remove feq_dec l y N). lia.
  Qed.
  Lemma remove_nodup (x : K) l : NoDup l -> NoDup (remove feq_dec x l).
  Proof.
    induction 1 as [|y l N D IH]; cbn [remove]; [constructor|]. destruct (feq_dec x y); [exact IH|]. constructor; [|exact IH]. intro I. apply N. exact (proj1 (in_remove feq_dec _ _ _ I)).
  Qed.
  Lemma same_products n : forall (X Y Ts : list K), length X = n -> length Y = n -> NoDup Ts -> (n < length Ts)%nat ->
    (forall t, In t Ts -> fprod (map (fun x => x - t) X) = fprod (map (fun y => y - t) Y)) -> Permutation X Y.
  Proof.
    induction n as [|n IH]; intros X Y Ts LX LY ND LT P.
    - destruct X; [|discriminate LX]. destruct Y; [|discriminate LY]. constructor.
    - destruct X as [|x X]; [discriminate LX|]. destruct (in_dec feq_dec x Y) as [I|NI].
      + apply in_split in I. destruct I as (Y1 & Y2 & ->). apply Permutation_cons_app.
        apply (IH X (Y1 ++ Y2) (remove feq_dec x Ts)).
        * cbn in LX. lia.
        * rewrite app_length in *. cbn in LY. lia.
        * apply remove_nodup, ND.
        * pose proof (remove_ge x Ts ND). lia.
        * intros t It. apply in_remove in It. destruct It as [It Nt]. specialize (P t It). rewrite map_app in P. cbn [map] in P. rewrite fprod_app, !fprod_cons in P. rewrite map_app, fprod_app.
          assert (x - t <> 0) by (intro Z; apply Nt; transitivity (x - (x - t)); [ring|rewrite Z; ring]).
          transitivity (finv (x - t) * ((x - t) * fprod (map (fun x => x - t) X))); [field; assumption|]. rewrite P. field. assumption.
      + exfalso. set (ds := padd (0 - 1) (rp (x :: X)) (rp Y)).
        assert (EV : forall t, peval ds t = fprod (map (fun x => x - t) (x :: X)) - fprod (map (fun y => y - t) Y)) by (intro t; unfold ds; rewrite peval_padd, !rp_eval; ring).
        assert (NZ : nonzero ds).
        { destruct (nonzero_dec ds) as [N|Z]; [exact N|exfalso]. specialize (Z x). rewrite EV in Z. rewrite fprod_in in Z by (left; ring).
          assert (Q : fprod (map (fun y => y - x) Y) = 0) by (transitivity (0 - (0 - fprod (map (fun y => y - x) Y))); [ring|rewrite Z; ring]).
          apply fprod_zero, in_map_iff in Q. destruct Q as (y & Q & Iy). apply NI. replace x with y; [exact Iy|]. transitivity ((y - x) + x); [ring|rewrite Q; ring]. }
        pose proof (few_roots Ts ds NZ ND) as FR. assert (LD : length ds = S (S n)) by (unfold ds; rewrite padd_length, !rp_length, LX, LY; apply Nat.max_id).
        rewrite LD in FR. enough (length Ts < S (S n))%nat by lia. apply FR. intros t It. rewrite EV, (P t It). ring.
  Qed.

  (** records that only collide for few challenges *)
  Definition weigh (g : K) (x : K * K * K) : K := let '(a, v, s) := x in s * (g * g) + v * g + a.
  Lemma fp_weigh g t L : map (fingerprint g t) L = map (fun w => w - t) (map (weigh g) L).
  Proof. rewrite map_map. apply map_ext. intros [[a v] s]. unfold fingerprint, weigh. ring. Qed.
  Lemma clash_few (x y : K * K * K) gs : x <> y -> NoDup gs -> (forall g, In g gs -> weigh g x = weigh g y) -> (length gs <= 2)%nat.
  Proof.
    destruct x as [[a v] s], y as [[a' v'] s']. intros N ND C. enough (lt (length gs) (length [a - a'; v - v'; s - s'])) as Q by (cbn [length] in Q; lia).
    apply few_roots; [|exact ND|].
    - assert (D : forall u w : K, u - w = 0 -> u = w) by (intros u w Z; transitivity ((u - w) + w); [ring|rewrite Z; ring]).
      destruct (feq_dec (a - a') 0) as [Za|]; [|exists (a - a'); split; [left; reflexivity|assumption]].
      destruct (feq_dec (v - v') 0) as [Zv|]; [|exists (v - v'); split; [right; left; reflexivity|assumption]].
      destruct (feq_dec (s - s') 0) as [Zs|]; [|exists (s - s'); split; [right; right; left; reflexivity|assumption]].
      exfalso. apply N. rewrite (D _ _ Za), (D _ _ Zv), (D _ _ Zs). reflexivity.
    - intros g Ig. specialize (C g Ig). cbn in C. rewrite !peval_cons, peval_nil.
      transitivity ((s * (g * g) + v * g + a) - (s' * (g * g) + v' * g + a')); [ring|rewrite C; ring].
  Qed.
  Lemma perm_weigh g (L1 : list (K * K * K)) : forall L2, (forall x y, In x L1 -> In y L2 -> weigh g x = weigh g y -> x = y) ->
    Permutation (map (weigh g) L1) (map (weigh g) L2) -> Permutation L1 L2.
  Proof.
    induction L1 as [|x L1 IH]; intros L2 C P.
    - apply Permutation_nil in P. destruct L2; [constructor|discriminate P].
    - assert (I : In (weigh g x) (map (weigh g) L2)) by (eapply Permutation_in; [exact P|left; reflexivity]).
      apply in_map_iff in I. destruct I as (y & Ey & Iy). assert (x = y) as <- by (apply C; [left; reflexivity|exact Iy|symmetry; exact Ey]).
      apply in_split in Iy. destruct Iy as (M1 & M2 & ->). apply Permutation_cons_app. apply IH.
      + intros u w Iu Iw. apply C; [right; exact Iu|]. apply in_app_iff in Iw. apply in_app_iff. destruct Iw; [left|right; right]; assumption.
      + rewrite map_app in *. cbn [map] in P. exact (Permutation_cons_app_inv _ _ P).
  Qed.
  Lemma rec_dec (x y : K * K * K) : {x = y} + {x <> y}.
  Proof. destruct x as [[a v] s], y as [[a' v'] s']. destruct (feq_dec a a') as [->|]; [|right; congruence]. destruct (feq_dec v v') as [->|]; [|right; congruence]. destruct (feq_dec s s') as [->|]; [left; reflexivity|right; congruence]. Qed.

  (** counting: every element is charged to a reason, and every reason covers few of them *)
  Lemma charge {A B} (R : B -> A -> bool) (k : nat) (P : list B) : (forall p l, In p P -> NoDup l -> (forall g, In g l -> R p g = true) -> (length l <= k)%nat) ->
    forall gs, NoDup gs -> (forall g, In g gs -> exists p, In p P /\ R p g = true) -> (length gs <= k * length P)%nat.
  Proof.
    induction P as [|p P IH]; intros F gs ND C.
    - destruct gs as [|g gs]; [cbn; lia|]. destruct (C g (or_introl eq_refl)) as (? & [] & _).
    - assert (SP : forall l, length l = (length (filter (R p) l) + length (filter (fun g => negb (R p g)) l))%nat).
      { induction l as [|y l I2]; [reflexivity|]. cbn [filter]. destruct (R p y); cbn [negb length]; lia. }
      rewrite (SP gs). pose proof (F p (filter (R p) gs) (or_introl eq_refl) (NoDup_filter _ ND) (fun g I => proj2 (proj1 (filter_In _ _ _) I))) as A1.
      assert (A2 : (length (filter (fun g => negb (R p g)) gs) <= k * length P)%nat).
      { apply IH; [intros q l I; apply F; right; exact I|apply NoDup_filter, ND|]. intros g I. apply filter_In in I. destruct I as [I N].
        destruct (C g I) as (q & [<-|Iq] & Rq); [rewrite Rq in N; discriminate N|]. exists q. split; assumption. }
      cbn [length]. nia.
  Qed.
  Lemma clash_or (g : K) (P : list ((K * K * K) * (K * K * K))) :
    (exists p, In p P /\ fst p <> snd p /\ weigh g (fst p) = weigh g (snd p)) \/ (forall p, In p P -> weigh g (fst p) = weigh g (snd p) -> fst p = snd p).
  Proof.
    induction P as [|p P IH]; [right; intros ? []|]. destruct IH as [(q & I & X)|IH]; [left; exists q; split; [right; exact I|exact X]|].
    destruct (rec_dec (fst p) (snd p)) as [E|N]; [right; intros q [<-|I] W; [exact E|exact (IH q I W)]|].
    destruct (feq_dec (weigh g (fst p)) (weigh g (snd p))) as [E|M]; [left; exists p; split; [left; reflexivity|split; assumption]|].
    right. intros q [<-|I] W; [destruct (M W)|exact (IH q I W)].
  Qed.

  Lemma few_gammas (L1 L2 : list (K * K * K)) gs : length L2 = length L1 -> ~ Permutation L1 L2 -> NoDup gs ->
    (forall g, In g gs -> exists Ts, NoDup Ts /\ (length L1 < length Ts)%nat /\ forall t, In t Ts -> fprod (map (fingerprint g t) L1) = fprod (map (fingerprint g t) L2)) ->
    (length gs <= 2 * (length L1 * length L1))%nat.
  Proof.
    intros LL NP ND B. rewrite <- LL at 2. rewrite <- prod_length.
    set (R := fun (p : (K * K * K) * (K * K * K)) g => (if rec_dec (fst p) (snd p) then false else true) && feqb (weigh g (fst p)) (weigh g (snd p))).
    apply (charge R); [|exact ND|].
    - intros [x y] l _ NDl C. destruct l as [|g0 l]; [cbn; lia|]. apply (clash_few x y); [|exact NDl|].
      + intro Q. specialize (C g0 (or_introl eq_refl)). unfold R in C. cbn [fst snd] in C. destruct (rec_dec x y); [discriminate C|contradiction].
      + intros g Ig. specialize (C g Ig). unfold R in C. cbn [fst snd] in C. apply andb_prop in C. apply feqb_true, C.
    - intros g Ig. destruct (B g Ig) as (Ts & NDT & LT & P).
      assert (PW : Permutation (map (weigh g) L1) (map (weigh g) L2)).
      { apply (same_products (length L1) _ _ Ts); rewrite ?map_length; auto. intros t It. rewrite <- !fp_weigh. exact (P t It). }
      destruct (clash_or g (list_prod L1 L2)) as [(p & I & N & W)|C].
      + exists p. split; [exact I|]. unfold R. destruct (rec_dec (fst p) (snd p)); [contradiction|]. rewrite W, Field.feqb_refl. reflexivity.
      + exfalso. apply NP, (perm_weigh g); [|exact PW]. intros x y Ix Iy W. exact (C (x, y) (proj2 (in_prod_iff _ _ _ _) (conj Ix Iy)) W).
  Qed.

  Lemma wrong_read (init audit ops : list (K * K * K)) (val : K -> K) a v s gs : length audit = length init ->
    (forall n, (1 <= n <= length ops)%nat -> (of_nat n : K) <> 0) -> (forall a v t, In (a, v, t) init \/ In (a, v, t) audit -> v = val a) ->
    In (a, v, s) ops -> v <> val a -> NoDup gs ->
    (forall g, In g gs -> exists Ts, NoDup Ts /\ (length init + length ops < length Ts)%nat /\ forall t, In t Ts ->
       fprod (map (fingerprint g t) init) * fprod (map (fingerprint g t) (map (fun '(a, v, s) => (a, v, s + 1)) ops)) =
       fprod (map (fingerprint g t) ops) * fprod (map (fingerprint g t) audit)) ->
    (length gs <= 2 * ((length init + length ops) * (length init + length ops)))%nat.
  Proof.
    intros LA CH V I N ND B. set (L1 := init ++ map (fun '(a, v, s) => (a, v, s + 1)) ops). set (L2 := ops ++ audit).
    assert (E1 : length L1 = (length init + length ops)%nat) by (unfold L1; rewrite app_length, map_length; reflexivity).
    rewrite <- E1. apply (few_gammas L1 L2); [unfold L2; rewrite E1, app_length; lia| |exact ND|].
    - intro P. apply N. exact (mem_sound init audit ops val CH V P a v s I).
    - intros g Ig. destruct (B g Ig) as (Ts & D & L & X). exists Ts. split; [exact D|]. split; [rewrite E1; exact L|]. intros t It. unfold L1, L2. rewrite !map_app, !fprod_app. exact (X t It).
  Qed.
End Sound.
