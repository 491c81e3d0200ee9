From Coq Require Import List Arith Bool Lia Field.
From Verif Require Import Base ListAux Field Vec PolyModel PolySpec PolyProofs SumSpec SumProofs AgmSpec.
Import ListNotations.

Section RR.
  Context {K : Fld}.
  Add Field Krr : (fth K).
  Local Open Scope fld_scope.

  Lemma few_mono d d' (B B' : K -> Prop) : (d <= d')%nat -> (forall x, B' x -> B x) -> few d B -> few d' B'.
  Proof. intros L I F l N A. specialize (F l N (fun x Hx => I x (A x Hx))). lia. Qed.
  Lemma few_none d : few d (fun _ : K => False).
  Proof. intros [|x l] _ A; [cbn; lia|]. destruct (A x (or_introl eq_refl)). Qed.
  Lemma few_one d (v : K) : (1 <= d)%nat -> few d (fun c => c = v).
  Proof.
    intros L [|x [|y l]] N A; cbn [length]; try lia. exfalso. inversion N as [|? ? N1 _]; subst. apply N1.
    rewrite (A x), (A y) by (cbn; auto). now left.
  Qed.
  Lemma few_roots d (cs : list K) : (length cs <= S d)%nat -> nonzero cs -> few d (fun x => peval cs x = 0).
  Proof. intros L N l Nd A. pose proof (few_roots l cs N Nd A). lia. Qed.
  (** c * x = y with x not zero *)
  Lemma few_lin d (x y : K) : (1 <= d)%nat -> x <> 0 -> few d (fun c => c * x = y).
  Proof. intros L N. apply (few_mono d d (fun c => c = y * finv x)); [lia| |now apply few_one]. intros c <-. field. exact N. Qed.
  Lemma few_or d e (A B : K -> Prop) : few d A -> few e B -> (forall x, A x \/ ~ A x) -> few (d + e) (fun x => A x \/ B x).
  Proof.
    intros FA FB D l N H.
    assert (X : exists la lb, NoDup la /\ NoDup lb /\ (forall x, In x la -> A x /\ In x l) /\ (forall x, In x lb -> B x /\ In x l) /\ length l = (length la + length lb)%nat).
    { clear FA FB. induction l as [|x l IH]; [exists [], []; repeat split; try constructor; now intros|].
      inversion N as [|? ? N1 N2]; subst. destruct (IH N2 (fun y Hy => H y (or_intror Hy))) as (la & lb & Na & Nb & Ha & Hb & L).
      destruct (D x) as [Ax|Ax].
      - exists (x :: la), lb. split; [constructor; [intro I; apply N1; exact (proj2 (Ha x I))|exact Na]|]. split; [exact Nb|].
        split; [intros y [<-|Hy]; [now split; [|left]|destruct (Ha y Hy); split; [assumption|now right]]|].
        split; [intros y Hy; destruct (Hb y Hy); split; [assumption|now right]|cbn; lia].
      - exists la, (x :: lb). split; [exact Na|]. split; [constructor; [intro I; apply N1; exact (proj2 (Hb x I))|exact Nb]|].
        split; [intros y Hy; destruct (Ha y Hy); split; [assumption|now right]|].
        split; [intros y [<-|Hy]; [destruct (H x (or_introl eq_refl)) as [Y|Y]; [contradiction|split; [exact Y|now left]]|destruct (Hb y Hy); split; [assumption|now right]]|cbn; lia]. }
    destruct X as (la & lb & Na & Nb & Ha & Hb & L). specialize (FA la Na (fun x Hx => proj1 (Ha x Hx))). specialize (FB lb Nb (fun x Hx => proj1 (Hb x Hx))). lia.
  Qed.

  Lemma rare_impl d n : forall A B : list K -> Prop, (forall cs, length cs = n -> A cs -> B cs) -> rare d n B -> rare d n A.
  Proof.
    induction n as [|n IH]; intros A B I R; cbn [rare] in *; [intro a; apply R, (I []); [reflexivity|exact a]|].
    destruct R as (Bad & F & R). exists Bad. split; [exact F|]. intros c Nc. apply (IH _ (fun cs => B (c :: cs))); [|now apply R].
    intros cs L. apply I. cbn. now rewrite L.
  Qed.
  Lemma rare_none d n : forall A : list K -> Prop, (forall cs, length cs = n -> ~ A cs) -> rare d n A.
  Proof.
    induction n as [|n IH]; intros A I; cbn [rare]; [now apply (I [])|]. exists (fun _ => False). split; [apply few_none|]. intros c _. apply IH.
    intros cs L. apply I. cbn. now rewrite L.
  Qed.
  Lemma rare_step d n (A : list K -> Prop) (B : K -> Prop) : few d B -> (forall c, ~ B c -> rare d n (fun cs => A (c :: cs))) -> rare d (S n) A.
  Proof. intros F R. exists B. now split. Qed.
  Lemma rare_skip d n (A : list K -> Prop) : (forall c, rare d n (fun cs => A (c :: cs))) -> rare d (S n) A.
  Proof. intro R. apply (rare_step d n A (fun _ => False)); [apply few_none|]. intros c _. apply R. Qed.
  Lemma rare_app d m n : forall B A : list K -> Prop, rare d n B -> (forall cs, length cs = n -> ~ B cs -> rare d m (fun ds => A (cs ++ ds))) -> rare d (n + m) A.
  Proof.
    induction n as [|n IH]; intros B A RB R; cbn [rare Nat.add] in *; [exact (R [] eq_refl RB)|].
    destruct RB as (Bad & F & RB). exists Bad. split; [exact F|]. intros c Nc. apply (IH (fun cs => B (c :: cs))); [now apply RB|].
    intros cs L N. apply (R (c :: cs)); [cbn; now rewrite L|exact N].
  Qed.
  Lemma rare_mono d d' n : forall A : list K -> Prop, (d <= d')%nat -> rare d n A -> rare d' n A.
  Proof.
    induction n as [|n IH]; intros A L R; [exact R|]. destruct R as (B & F & R). exists B. split; [exact (few_mono d d' B B L (fun x h => h) F)|].
    intros c Nc. apply IH; [exact L|now apply R].
  Qed.

  (** * counting *)
  Definition keq_dec (x y : K) : {x = y} + {x <> y} := match feqb_spec K x y with ReflectT _ e => left e | ReflectF _ e => right e end.
  Definition starts (c : K) (v : list K) : bool := match v with x :: _ => feqb x c | [] => false end.
  Lemma starts_true c v : starts c v = true -> exists t, v = c :: t.
  Proof. destruct v as [|x t]; cbn; [discriminate|]. destruct (feqb_spec K x c) as [->|]; [|discriminate]. now exists t. Qed.
  Lemma NoDup_map_tl c (V : list (list K)) : NoDup V -> (forall v, In v V -> starts c v = true) -> NoDup (map (@tl K) V).
  Proof.
    induction V as [|v V IH]; intros N A; cbn [map]; constructor.
    - inversion N as [|? ? N1 N2]; subst. intro I. apply in_map_iff in I. destruct I as (w & Ew & Iw).
      destruct (starts_true c v (A v (or_introl eq_refl))) as (t & ->). destruct (starts_true c w (A w (or_intror Iw))) as (t' & ->). cbn in Ew. subst t'. contradiction.
    - inversion N as [|? ? N1 N2]; subst. apply IH; [exact N2|]. intros w Iw. apply A. now right.
  Qed.
  (** a bound for each first entry bounds the whole *)
  Lemma split_head c (V : list (list K)) : NoDup V ->
    exists V1 V2, NoDup V1 /\ NoDup V2 /\ (forall v, In v V1 -> In (c :: v) V) /\ (forall v, In v V2 -> In v V /\ starts c v = false) /\
      length V = (length V1 + length V2)%nat.
  Proof.
    intro N. exists (map (@tl K) (filter (starts c) V)), (filter (fun v => negb (starts c v)) V). split; [|split; [|split; [|split]]].
    - apply (NoDup_map_tl c); [now apply NoDup_filter|]. intros v Iv. now apply filter_In in Iv.
    - now apply NoDup_filter.
    - intros v Iv. apply in_map_iff in Iv. destruct Iv as (w & <- & Iw). apply filter_In in Iw. destruct Iw as [Iw Sw]. destruct (starts_true c w Sw) as (t & ->). exact Iw.
    - intros v Iv. apply filter_In in Iv. destruct Iv as [Iv Nv]. split; [exact Iv|]. now destruct (starts c v).
    - rewrite map_length. clear N. induction V as [|v V IH]; [reflexivity|]. cbn [filter]. destruct (starts c v); cbn [negb length]; lia.
  Qed.
  Lemma starts_cons c (t : list K) : starts c (c :: t) = true.
  Proof. cbn. destruct (feqb_spec K c c); congruence. Qed.
  Lemma vectors_bound (Q : list K) n : forall V : list (list K), NoDup V -> (forall v, In v V -> length v = n /\ incl v Q) -> (length V <= length Q ^ n)%nat.
  Proof.
    induction n as [|n IH]; intros V N A.
    - destruct V as [|v [|w V]]; cbn; try lia. exfalso. destruct (A v ltac:(cbn; auto)) as [Lv _]. destruct (A w ltac:(cbn; auto)) as [Lw _].
      destruct v; [|discriminate]. destruct w; [|discriminate]. inversion N as [|? ? N1 _]; subst. apply N1. now left.
    - cbn [Nat.pow].
      assert (P : forall (T : list K) (V : list (list K)), NoDup V -> (forall v, In v V -> length v = S n /\ incl v Q) ->
        (forall v, In v V -> exists c t, v = c :: t /\ In c T) -> (length V <= length T * length Q ^ n)%nat).
      { clear V N A. induction T as [|c T IHT]; intros V N A B.
        - destruct V as [|v V]; [cbn; lia|]. destruct (B v (or_introl eq_refl)) as (? & ? & _ & []).
        - destruct (split_head c V N) as (V1 & V2 & N1 & N2 & I1 & I2 & L). rewrite L. cbn [length Nat.mul]. apply Nat.add_le_mono.
          + apply IH; [exact N1|]. intros v Iv. destruct (A _ (I1 v Iv)) as [Lv I]. cbn in Lv. split; [lia|]. intros x Ix. apply I. now right.
          + apply IHT; [exact N2| |].
            * intros v Iv. now apply A, I2.
            * intros v Iv. destruct (I2 v Iv) as [Iv' Nv]. destruct (B v Iv') as (x & t & -> & [<-|Ix]); [now rewrite starts_cons in Nv|now exists x, t]. }
      apply (P Q V N A). intros v Iv. destruct (A v Iv) as [Lv Iv']. destruct v as [|x t]; [discriminate|]. exists x, t. split; [reflexivity|]. apply Iv'. now left.
  Qed.
  Lemma rare_count d (Q : list K) : NoDup Q -> forall n A (V : list (list K)), rare d n A -> NoDup V ->
    (forall v, In v V -> length v = n /\ incl v Q /\ A v) -> (length V * length Q <= n * d * length Q ^ n)%nat.
  Proof.
    intro NQ. induction n as [|n IH]; intros A V R N I.
    - destruct V as [|v V]; [cbn; lia|]. destruct (I v (or_introl eq_refl)) as (Lv & _ & Av). destruct v; [|discriminate]. contradiction.
    - destruct R as (B & F & R).
      assert (P : forall (T : list K) (V : list (list K)), NoDup T -> NoDup V -> (forall v, In v V -> length v = S n /\ incl v Q /\ A v) ->
        (forall v, In v V -> exists c t, v = c :: t /\ In c T) ->
        ~ ~ exists Lb : list K, NoDup Lb /\ (forall x, In x Lb -> B x /\ In x T) /\
          (length V * length Q <= length T * (n * d * length Q ^ n) + length Lb * (length Q ^ n * length Q))%nat).
      { clear V N I. induction T as [|c T IHT]; intros V NT N I H X.
        - destruct V as [|v V]; [|destruct (H v (or_introl eq_refl)) as (? & ? & _ & [])]. apply X. exists []. split; [constructor|]. split; [intros x []|]. cbn. lia.
        - destruct (split_head c V N) as (V1 & V2 & N1 & N2 & I1 & I2 & L). inversion NT as [|? ? NT1 NT2]; subst.
          refine (IHT V2 NT2 N2 (fun v Iv => I v (proj1 (I2 v Iv))) _ _).
          + intros v Iv. destruct (I2 v Iv) as [Iv' Nv]. destruct (H v Iv') as (x & t & -> & [<-|Ix]); [now rewrite starts_cons in Nv|now exists x, t].
          + intros (Lb & NL & HL & LE). 
            assert (D : ~ ~ (B c \/ ~ B c)) by tauto. apply D. intros [Bc|Bc]; apply X.
            * exists (c :: Lb). split; [constructor; [intro Ic; apply NT1, (HL c Ic)|exact NL]|]. split.
              { intros x [<-|Ix]; [split; [exact Bc|now left]|]. destruct (HL x Ix). split; [assumption|now right]. }
              assert (length V1 <= length Q ^ n)%nat.
              { apply vectors_bound; [exact N1|]. intros v Iv. destruct (I _ (I1 v Iv)) as (Lv & Iq & _). cbn in Lv. split; [lia|]. intros x Ix. apply Iq. now right. }
              rewrite L. cbn [length]. nia.
            * exists Lb. split; [exact NL|]. split.
              { intros x Ix. destruct (HL x Ix). split; [assumption|now right]. }
              assert (length V1 * length Q <= n * d * length Q ^ n)%nat.
              { apply (IH (fun cs => A (c :: cs))); [now apply R|exact N1|]. intros v Iv. destruct (I _ (I1 v Iv)) as (Lv & Iq & Av). cbn in Lv. split; [lia|]. split; [|exact Av]. intros x Ix. apply Iq. now right. }
              rewrite L. cbn [length]. nia. }
      destruct (le_lt_dec (length V * length Q) (S n * d * length Q ^ S n)) as [Y|Y]; [exact Y|exfalso].
      refine (P Q V NQ N I _ _).
      + intros v Iv. destruct (I v Iv) as (Lv & Iv' & _). destruct v as [|x t]; [discriminate|]. exists x, t. split; [reflexivity|]. apply Iv'. now left.
      + intros (Lb & NL & HL & LE). specialize (F Lb NL (fun x Ix => proj1 (HL x Ix))). cbn [Nat.pow] in Y.
        assert (length Lb * (length Q ^ n * length Q) <= d * (length Q ^ n * length Q))%nat by (apply Nat.mul_le_mono_r; exact F). nia.
  Qed.
End RR.
