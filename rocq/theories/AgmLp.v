(** Provers of the evaluation proof. *)
From Coq Require Import String List Arith Bool Lia Field.
From Verif Require Import Base ListAux Field Vec MathModel PolyModel PolySpec PolyProofs CommitModel SigmaModel CommitSpec CommitProofs BulletProofs SigmaProofs SumModel SumSpec SumProofs EvalSpec EvalProofs AgmSpec AgmRare AgmZk.
Import ListNotations.

Section AL.
  Context {K : Fld} {G : Mod K} {E : Enc G}.
  Add Field Kal : (fth K).
  Local Open Scope fld_scope.
  Local Notation cmp := (CommitModel.compress E).
  Variables (N : nat) (stream : nat -> G) (co : nat -> G -> K).
  Hypothesis Co : coordinates N stream co.

  (** * three points out of five have different squares *)
  Lemma square_eq (u v : K) : u * u = v * v -> u = v \/ u = - v.
  Proof.
    intro X. assert (Y : (u - v) * (u + v) = 0) by (transitivity (u * u - v * v); [ring|]; rewrite X; ring).
    destruct (fmul_eq_0 K _ _ Y) as [Z|Z]; [left; now apply (fsub_eq_0 K)|right]. transitivity (u + v - v); [ring|]. rewrite Z. ring.
  Qed.
  Lemma few_square (v : K) : few 2 (fun u => u * u = v).
  Proof.
    intros [|x [|y [|z l]]] Nd A; cbn [length]; try lia. exfalso.
    assert (X : x * x = v) by (apply A; cbn; auto). assert (Y : y * y = v) by (apply A; cbn; auto). assert (Z : z * z = v) by (apply A; cbn; auto).
    inversion Nd as [|? ? N1 N2]; subst. inversion N2 as [|? ? N3 _]; subst.
    destruct (square_eq y x Y) as [Exy|Exy]; [apply N1; subst; now left|]. destruct (square_eq z x Z) as [Exz|Exz]; [apply N1; subst; right; now left|].
    apply N3. left. congruence.
  Qed.
  Lemma few_squares (B : K -> Prop) : ~ (exists u1 u2 u3, B u1 /\ B u2 /\ B u3 /\ u1 * u1 <> u2 * u2 /\ u1 * u1 <> u3 * u3 /\ u2 * u2 <> u3 * u3) -> few 4 B.
  Proof.
    intros NE l Nd A. destruct (le_lt_dec (length l) 4) as [|L]; [assumption|]. exfalso. destruct l as [|x l]; [cbn in L; lia|].
    assert (D1 : exists y, In y l /\ y * y <> x * x).
    { destruct (Exists_dec (fun y => y * y <> x * x) l (fun y => match keq_dec (y * y) (x * x) with left e => right (fun n => n e) | right n => left n end)) as [e|e]; [now apply Exists_exists in e|].
      exfalso. pose proof (few_square (x * x) (x :: l) Nd) as F. rewrite <- Forall_Exists_neg in e. rewrite Forall_forall in e.
      cut (length (x :: l) <= 2)%nat; [lia|]. apply F. intros y [<-|Hy]; [reflexivity|]. destruct (keq_dec (y * y) (x * x)) as [q|q]; [exact q|destruct (e y Hy q)]. }
    destruct D1 as (y & Iy & Ny).
    assert (D2 : exists z, In z l /\ z * z <> x * x /\ z * z <> y * y).
    { destruct (Exists_dec (fun z => z * z <> x * x /\ z * z <> y * y) l) as [e|e].
      - intro z. destruct (keq_dec (z * z) (x * x)) as [q|q]; [right; now intros [? _]|]. destruct (keq_dec (z * z) (y * y)) as [q'|q']; [right; now intros [_ ?]|left; now split].
      - now apply Exists_exists in e.
      - exfalso. rewrite <- Forall_Exists_neg in e. rewrite Forall_forall in e.
        pose proof (few_or 2 2 _ _ (few_square (x * x)) (few_square (y * y)) (fun u => match keq_dec (u * u) (x * x) with left q => or_introl q | right q => or_intror q end) (x :: l) Nd) as F.
        cut (length (x :: l) <= 2 + 2)%nat; [lia|]. apply F. intros z [<-|Hz]; [now left|].
        destruct (keq_dec (z * z) (x * x)) as [q|q]; [now left|]. destruct (keq_dec (z * z) (y * y)) as [q'|q']; [now right|destruct (e z Hz (conj q q'))]. }
    destruct D2 as (z & Iz & Nz1 & Nz2). apply NE. exists x, y, z. repeat split; try (apply A; cbn; auto); congruence.
  Qed.

  (** * what a point must be, in coordinates, to pass the reduction *)
  Variables (Q h : G).
  Definition fits (gs : list G) (a : list K) (P : G) : Prop := exists x b, length x = length gs /\
    forall i, (i < N)%nat -> co i P = dot x (map (co i) gs) + dot x a * co i Q + b * co i h.
  Definition step (u : K) (L R P : G) : G := gadd P (gadd (gmul (u * u) L) (gmul (finv u * finv u) R)).
  Definition folda (u : K) (a : list K) : list K := foldv (G := self_mod K) u a.

  Lemma co_foldv i u k (x : list K) gs : length gs = (2 ^ S k)%nat -> length x = (2 ^ k)%nat -> dot x (map (co i) (foldv u gs)) = dot (unfold_vec u x) (map (co i) gs).
  Proof. intros Lg Lx. rewrite <- !(co_lincomb N stream co Co). f_equal. now apply foldv_lincomb with (k := k). Qed.
  Lemma dot_folda u k (x a : list K) : length a = (2 ^ S k)%nat -> length x = (2 ^ k)%nat -> dot x (folda u a) = dot (unfold_vec u x) a.
  Proof. intros La Lx. rewrite <- !lincomb_self. now apply (foldv_lincomb (G := self_mod K) u k). Qed.

  Lemma fits_step k gs a P L R : length gs = (2 ^ S k)%nat -> length a = (2 ^ S k)%nat -> ~ fits gs a P ->
    few 4 (fun u => u <> 0 /\ fits (foldv u gs) (folda u a) (step u L R P)).
  Proof.
    intros Lg La NF. apply few_squares. intros (u1 & u2 & u3 & [Z1 F1] & [Z2 F2] & [Z3 F3] & N12 & N13 & N23). apply NF.
    assert (FF : forall u, fits (foldv u gs) (folda u a) (step u L R P) -> exists x b, length x = (2 ^ k)%nat /\ forall i, (i < N)%nat ->
      co i P + (u * u * co i L + finv u * finv u * co i R) = dot (unfold_vec u x) (map (co i) gs) + dot (unfold_vec u x) a * co i Q + b * co i h).
    { intros u (x & b & Lx & X). rewrite (foldv_length u k gs Lg) in Lx. exists x, b. split; [exact Lx|]. intros i Hi. specialize (X i Hi).
      unfold step in X. rewrite !(co_add _ _ _ Co), !(co_mul _ _ _ Co) in X. rewrite X, (co_foldv i u k), (dot_folda u k) by assumption. reflexivity. }
    destruct (FF u1 F1) as (x1 & b1 & L1 & X1). destruct (FF u2 F2) as (x2 & b2 & L2 & X2). destruct (FF u3 F3) as (x3 & b3 & L3 & X3). clear FF F1 F2 F3.
    pose proof (fun i => combine3 (G := self_mod K) (co i P) (co i Q) (co i h) (co i L) (co i R) x1 x2 x3 b1 b2 b3 u1 u2 u3 (map (co i) gs) a (2 ^ k) Z1 Z2 Z3 N12 N13 N23 L1 L2 L3) as C.
    cbv zeta in C. set (y := vadd _ _) in C. set (b := _ + (_ + _)) in C.
    exists y, b. split.
    - unfold y, vadd. rewrite !map2_length, !map_length, !unfold_length, L1, L2, L3, Lg, pow2_S. lia.
    - intros i Hi. specialize (C i). rewrite !lincomb_self in C. exact (C (X1 i Hi) (X2 i Hi) (X3 i Hi)).
  Qed.

  Definition nz (a : list K) : Prop := exists i, nth i a 0 <> 0.
  Lemma nz_dec a : nz a \/ ~ nz a.
  Proof.
    destruct (Exists_dec (fun x : K => x <> 0) a (fun y => match keq_dec y 0 with left e => right (fun n => n e) | right n => left n end)) as [e|e].
    - left. apply Exists_exists in e. destruct e as (x & Ix & Nx). apply (In_nth _ _ 0) in Ix. destruct Ix as (i & _ & Ei). exists i. now rewrite Ei.
    - right. intros [i Ni]. apply e. apply Exists_exists. exists (nth i a 0). split; [|exact Ni]. apply nth_In.
      destruct (le_lt_dec (length a) i) as [O|O]; [|exact O]. rewrite nth_overflow in Ni by exact O. now destruct Ni.
  Qed.
  Lemma nz_fold k a : length a = (2 ^ S k)%nat -> nz a -> few 2 (fun u => u <> 0 /\ ~ nz (folda u a)).
  Proof.
    intros La [i Ni].
    assert (Hi : (i < 2 ^ S k)%nat). { destruct (le_lt_dec (2 ^ S k) i) as [O|O]; [|exact O]. rewrite nth_overflow in Ni by lia. now destruct Ni. }
    rewrite pow2_S in La, Hi. set (n := (2 ^ k)%nat) in *. set (j := (i mod n)%nat).
    assert (Pn : n <> 0%nat) by (pose proof (pow2_pos k); unfold n; lia). assert (Hj : (j < n)%nat) by (apply Nat.mod_upper_bound; exact Pn).
    assert (NJ : nth j a 0 <> 0 \/ nth (n + j) a 0 <> 0).
    { destruct (le_lt_dec n i) as [O|O].
      - right. replace (n + j)%nat with i; [exact Ni|]. unfold j. replace i with ((i - n) + 1 * n)%nat at 2 by lia. rewrite Nat.mod_add by exact Pn. rewrite Nat.mod_small; lia.
      - left. unfold j. now rewrite Nat.mod_small. }
    assert (EN : forall u, nth j (folda u a) 0 = finv u * nth j a 0 + u * nth (n + j) a 0).
    { intro u. assert (Hh : (length a / 2 = n)%nat) by (rewrite La; replace (n + n)%nat with (n * 2)%nat by lia; now rewrite Nat.div_mul).
      assert (LF : (j < length (firstn n a))%nat) by (rewrite firstn_length_le; lia). assert (LS : (j < length (skipn n a))%nat) by (rewrite skipn_length; lia).
      transitivity (finv u * nth j (firstn n a) 0 + u * nth j (skipn n a) 0); [rewrite <- Hh; rewrite <- Hh in LF, LS; exact (map2_nth (fun l r : K => finv u * l + u * r) (firstn (length a / 2) a) (skipn (length a / 2) a) j 0 0 0 LF LS)|].
      now rewrite firstn_nth, skipn_nth by exact Hj. }
    apply (few_mono 2 2 (fun u => peval [nth j a 0; 0; nth (n + j) a 0] u = 0)); [lia| |].
    - intros u [Zu NN]. assert (X : nth j (folda u a) 0 = 0) by (destruct (keq_dec (nth j (folda u a) 0) 0) as [q|q]; [exact q|destruct NN; now exists j]).
      rewrite EN in X. rewrite !peval_cons, peval_nil. transitivity (u * (finv u * nth j a 0 + u * nth (n + j) a 0)); [field; exact Zu|]. rewrite X. ring.
    - apply few_roots; [cbn; lia|]. destruct NJ as [X|X]; [exists (nth j a 0)|exists (nth (n + j) a 0)]; (split; [cbn; auto|exact X]).
  Qed.

  (** * the rounds *)
  Fixpoint lr_acc {k : nat} {A : Type} : lr_plan E k A -> list G -> list K -> G -> list K -> (A -> list G -> list K -> G -> list K -> Prop) -> Prop :=
    match k with
    | O => fun s gs a P cs Kont => Kont s gs a P cs
    | S k' => fun s gs a P cs Kont => let u := nth 0 cs 0 in u <> 0 /\
        lr_acc (snd s u) (foldv u gs) (folda u a) (step u (point (fst (fst s))) (point (snd (fst s))) P) (skipn 1 cs) Kont
    end.
  Lemma lr_rare D m : (6 <= D)%nat -> forall k A (s : lr_plan E k A) gs a P (Kont : A -> list G -> list K -> G -> list K -> Prop),
    length gs = (2 ^ k)%nat -> length a = (2 ^ k)%nat -> nz a -> ~ fits gs a P ->
    (forall x g a0 P, a0 <> 0 -> ~ fits [g] [a0] P -> rare D m (Kont x [g] [a0] P)) ->
    rare D (k + m) (fun cs => lr_acc s gs a P cs Kont).
  Proof.
    intro HD. induction k as [|k IH]; intros A s gs a P Kont Lg La Na NF RK.
    - cbn [Nat.add lr_acc]. destruct gs as [|g [|]]; try discriminate Lg. destruct a as [|a0 [|]]; try discriminate La.
      apply (rare_impl D m _ (Kont s [g] [a0] P)); [auto|]. apply RK; [|exact NF]. destruct Na as [[|[|i]] Ni]; [exact Ni|destruct Ni; reflexivity|destruct Ni; reflexivity].
    - destruct s as [[L R] s1]. cbn [Nat.add lr_acc fst snd].
      apply (rare_step D _ _ (fun u => (u <> 0 /\ ~ nz (folda u a)) \/ (u <> 0 /\ fits (foldv u gs) (folda u a) (step u (point L) (point R) P)))).
      + apply (few_mono (2 + 4) D _ _ HD (fun x q => q)). apply few_or; [now apply nz_fold with (k := k)|now apply fits_step with (k := k)|].
        intro u. destruct (keq_dec u 0) as [q|q]; [right; now intros [? _]|]. destruct (nz_dec (folda u a)) as [z|z]; [right; now intros [_ ?]|left; now split].
      + intros u Nu. cbn [nth skipn]. destruct (keq_dec u 0) as [Zu|Zu].
        * apply rare_none. now intros cs _ [X _].
        * eapply rare_impl; [intros cs _ X; exact (proj2 X)|]. apply IH.
          -- now apply foldv_length.
          -- now apply (foldv_length (G := self_mod K)).
          -- destruct (nz_dec (folda u a)) as [z|z]; [exact z|destruct Nu; left; now split].
          -- intro F. apply Nu. right. now split.
          -- exact RK.
  Qed.
  Lemma lr_skip D m : forall k A (s : lr_plan E k A) gs a P (Kont : A -> list G -> list K -> G -> list K -> Prop),
    (forall x gs a P, rare D m (Kont x gs a P)) -> rare D (k + m) (fun cs => lr_acc s gs a P cs Kont).
  Proof.
    induction k as [|k IH]; intros A s gs a P Kont RK; cbn [Nat.add lr_acc].
    - apply (rare_impl D m _ (Kont s gs a P)); [auto|apply RK].
    - apply rare_skip. intro u. cbn [nth skipn]. eapply rare_impl; [intros cs _ X; exact (proj2 X)|]. now apply IH.
  Qed.

  Lemma lr_sent_length k A : forall (s : lr_plan E k A) cs, length (fst (fst (lr_sent s cs))) = k /\ snd (lr_sent s cs) = skipn k cs.
  Proof.
    induction k as [|k IH]; intros s cs; [now split|]. cbn [lr_sent]. destruct s as [LR s1]. specialize (IH (s1 (nth 0 cs 0)) (skipn 1 cs)).
    destruct (lr_sent (s1 (nth 0 cs 0)) (skipn 1 cs)) as [[l x] cs']. cbn [fst snd length] in *. destruct IH as [-> ->]. split; [reflexivity|].
    destruct cs as [|c cs]; [now rewrite !skipn_nil|reflexivity].
  Qed.
  (** folding all at once, as the verifier does *)
  Lemma lr_run : forall k A (s : lr_plan E k A) gs a P cs (Kont : A -> list G -> list K -> G -> list K -> Prop),
    length gs = (2 ^ k)%nat -> length a = (2 ^ k)%nat -> (k <= length cs)%nat ->
    let us := firstn k cs in (forall u, In u us -> u <> 0) ->
    let '(LR, x, cs') := lr_sent s cs in
    Kont x [lincomb (tab (2 ^ k) (sval us)) gs] [dot a (tab (2 ^ k) (sval us))]
      (gadd (gadd (lincomb (map (fun u => u * u) us) (map (fun e => point (fst e)) LR))
        (lincomb (map (fun u => finv u * finv u) us) (map (fun e => point (snd e)) LR))) P) cs' ->
    lr_acc s gs a P cs Kont.
  Proof.
    induction k as [|k IH]; intros A s gs a P cs Kont Lg La Lc us Nz.
    - cbn [lr_sent lr_acc]. unfold us. cbn [firstn map lincomb]. destruct gs as [|g [|]]; try discriminate Lg. destruct a as [|a0 [|]]; try discriminate La.
      change (tab (2 ^ 0) (sval (K:=K) [])) with [1 : K]. cbn [lincomb]. rewrite (dot_cons K), (dot_nil_l K). intro X.
      replace g with (gadd (gmul 1 g) g0) by (module_red; ring). replace a0 with (a0 * 1 + 0) by ring. replace P with (gadd (gadd g0 g0) P) by (module_red; ring). exact X.
    - cbn [lr_sent lr_acc]. destruct cs as [|u cs]; [cbn in Lc; lia|]. cbn [firstn] in us. destruct s as [[L R] s1]. cbn [nth skipn fst snd].
      specialize (IH A (s1 u) (foldv u gs) (folda u a) (step u (point L) (point R) P) cs Kont (foldv_length u k gs Lg) (foldv_length (G := self_mod K) u k a La) ltac:(cbn in Lc; lia)).
      cbv zeta in IH. specialize (IH (fun v Hv => Nz v (or_intror Hv))). destruct (lr_sent (s1 u) cs) as [[LR x] cs']. intro X.
      split; [apply Nz; now left|]. apply IH. clear IH.
      assert (Lf : length (firstn k cs) = k) by (apply firstn_length_le; cbn in Lc; lia).
      rewrite (foldv_lincomb u k) by (try assumption; apply tab_length). rewrite (dot_comm K (folda u a)), (dot_folda u k) by (try assumption; apply tab_length).
      pose proof (unfold_svec u (firstn k cs)) as US. cbn [length] in US. rewrite Lf in US. rewrite US, (dot_comm K _ a). fold us.
      unfold us in X at 3 4. cbn [map lincomb] in X. cbn [fst snd] in X. unfold step.
      match goal with |- Kont _ _ _ ?T _ => match type of X with Kont _ _ _ ?T' _ => replace T with T' by (module_red; ring) end end. exact X.
  Qed.
End AL.

Section AV.
  Context {K : Fld} {G : Mod K} {E : Enc G}.
  Add Field Kav : (fth K).
  Local Open Scope fld_scope.
  Local Notation cmp := (CommitModel.compress E).
  Variables (N : nat) (stream : nat -> G) (co : nat -> G -> K) (k : nat).
  Hypothesis Co : coordinates N stream co.
  Let n := (2 ^ k)%nat.
  Hypothesis HN : (n + 1 < N)%nat.

  Definition lp_holds {A} (a : list K) (Cx Cy : E) (s : K -> lr_plan E k ((E * E) * (K -> (K * K) * A))) (cs : list K) (Kont : A -> list K -> Prop) : Prop :=
    let r := nth 0 cs 0 in
    lr_acc (s r) (tab n stream) a (gadd (point Cx) (gmul r (point Cy))) (skipn 1 cs) (fun x gs a' P cs' =>
      let '((dl, be), s') := x in let '((z1, z2), y) := s' (nth 0 cs' 0) in
      (forall i, (i < N)%nat -> hd 0 a' * (nth 0 cs' 0 * co i P + co i (point be)) + co i (point dl) =
        z1 * (co i (hd g0 gs) + hd 0 a' * co i (gmul r (stream n))) + z2 * co i (stream (n + 1)%nat)) /\ Kont y (skipn 1 cs')).

  Lemma lp_start a (X Y : G) : length a = n -> co n Y <> dot (tab n (fun i => co i X)) a ->
    few 2 (fun r => fits N co (gmul r (stream n)) (stream (n + 1)%nat) (tab n stream) a (gadd X (gmul r Y))).
  Proof.
    intros La Ne. set (x := tab n (fun i => co i X)) in *. set (y := tab n (fun i => co i Y)).
    apply (few_mono 2 2 (fun r => peval [co n X; co n Y - dot x a; - dot y a] r = 0)); [lia| |].
    - intros r (z & b & Lz & F). rewrite tab_length in Lz.
      assert (Ez : z = vadd x (map (fmul r) y)).
      { apply (list_ext _ _ 0); [unfold vadd, x, y; rewrite map2_length, map_length, !tab_length; lia|]. intros i Hi. rewrite Lz in Hi.
        specialize (F i ltac:(lia)). rewrite (co_tab N stream co Co i n z) in F by (try assumption; lia).
        rewrite !(co_add _ _ _ Co), !(co_mul _ _ _ Co), !(co_gen _ _ _ Co) in F by lia. rewrite (proj2 (Nat.eqb_neq i n)), (proj2 (Nat.eqb_neq i (n + 1))) in F by lia.
        unfold vadd, x, y. rewrite map_tab, map2_tab, nth_tab by exact Hi. rewrite F. ring. }
      specialize (F n ltac:(lia)). rewrite (co_tab_out N stream co Co n n z) in F by (try assumption; lia).
      rewrite !(co_add _ _ _ Co), !(co_mul _ _ _ Co), !(co_gen _ _ _ Co) in F by lia. rewrite Nat.eqb_refl, (proj2 (Nat.eqb_neq n (n + 1))) in F by lia.
      rewrite Ez, (dot_vadd_l K), (dot_scale_l K) in F by (unfold x, y; rewrite map_length, !tab_length; reflexivity).
      rewrite !peval_cons, peval_nil. transitivity (co n X + r * co n Y - (0 + (dot x a + r * dot y a) * (r * 1) + b * 0)); [ring|]. rewrite F. ring.
    - apply few_roots; [cbn; lia|]. exists (co n Y - dot x a). split; [cbn; auto|now apply sub_nz].
  Qed.

  Lemma lp_rare {A} D m a Cx Cy (s : K -> lr_plan E k ((E * E) * (K -> (K * K) * A))) Kont : (6 <= D)%nat -> length a = n -> nz a ->
    co n (point Cy) <> dot (tab n (fun i => co i (point Cx))) a ->
    rare D (S (k + S m)) (fun cs => lp_holds a Cx Cy s cs Kont).
  Proof.
    intros HD La Na Ne. apply (rare_step D _ _ _ (few_mono 2 D _ _ ltac:(lia) (fun x q => q) (lp_start a (point Cx) (point Cy) La Ne))).
    intros r Nr. unfold lp_holds. cbn [nth skipn].
    eapply (lr_rare N stream co Co _ _ D (S m) HD); [apply tab_length|exact La|exact Na|exact Nr|].
    intros [[dl be] s'] g a0 P Za NF. cbn [hd].
    apply (rare_step D _ _ (fun c => exists z1 z2, forall i, (i < N)%nat -> a0 * (c * co i P + co i (point be)) + co i (point dl) =
      z1 * (co i g + a0 * co i (gmul r (stream n))) + z2 * co i (stream (n + 1)%nat))).
    - apply (few_mono 1 D _ _ ltac:(lia) (fun x q => q)). intros [|c [|c' l]] Nd AB; cbn [length]; try lia. exfalso.
      destruct (AB c (or_introl eq_refl)) as (z1 & z2 & E1). destruct (AB c' (or_intror (or_introl eq_refl))) as (z1' & z2' & E2).
      assert (Nc : c - c' <> 0). { apply sub_nz. inversion Nd as [|? ? N1 _]. intros ->. apply N1. now left. }
      apply NF. exists [finv ((c - c') * a0) * (z1 - z1')], (finv ((c - c') * a0) * (z2 - z2')). split; [reflexivity|]. intros i Hi. specialize (E1 i Hi). specialize (E2 i Hi).
      cbn [map]. rewrite !(dot_cons K), !(dot_nil_l K).
      transitivity (finv ((c - c') * a0) * ((a0 * (c * co i P + co i (point be)) + co i (point dl)) - (a0 * (c' * co i P + co i (point be)) + co i (point dl)))); [field; now split|].
      rewrite E1, E2. ring.
    - intros c Nc. apply rare_none. intros cs _. cbn [nth]. destruct (s' c) as [[z1 z2] y] eqn:Es. intros [X _]. apply Nc. now exists z1, z2.
  Qed.
  Lemma lp_skip {A} D m a Cx Cy (s : K -> lr_plan E k ((E * E) * (K -> (K * K) * A))) (Kont : A -> list K -> Prop) :
    (forall y, rare D m (Kont y)) -> rare D (S (k + S m)) (fun cs => lp_holds a Cx Cy s cs Kont).
  Proof.
    intro RK. apply rare_skip. intro r. unfold lp_holds. cbn [nth skipn]. apply lr_skip. intros [[dl be] s'] gs a' P. apply rare_skip. intro c. cbn [nth skipn].
    destruct (s' c) as [[z1 z2] y]. eapply rare_impl; [intros cs _ X; exact (proj2 X)|apply RK].
  Qed.

  Variable H : log E -> K.
  Lemma lr_challenges : forall LR tr cs, answers H tr cs -> (length LR <= length cs)%nat ->
    fst (bullet_challenges H LR tr) = firstn (length LR) cs /\ asked (snd (bullet_challenges H LR tr)) = (asked tr + length LR)%nat.
  Proof.
    induction LR as [|[L R] LR IH]; intros tr cs An Lc; cbn [bullet_challenges length]; [split; [reflexivity|cbn [snd]; lia]|]. unfold challenge.
    set (t1 := MChal "u" :: _). assert (A1 : asked t1 = (asked tr + 1)%nat) by (unfold t1, app_point; rewrite !asked_cons; cbn [is_chal]; lia).
    cbn [length] in Lc. destruct (IH t1 (skipn 1 cs)) as [I1 I2]; [now apply (answers_skip H tr)|rewrite skipn_length; lia|].
    destruct (bullet_challenges H LR t1) as [us t2]. cbn [fst snd] in *. split; [|lia]. rewrite (An t1 0%nat) by lia. rewrite I1.
    destruct cs as [|c cs]; [cbn in Lc; lia|reflexivity].
  Qed.
  Lemma fprod_nz (l : list K) : fprod l <> 0 -> forall u, In u l -> u <> 0.
  Proof.
    induction l as [|x l IH]; intros Np u Hu; [contradiction|]. cbn [fprod] in Np. destruct Hu as [<-|Hu].
    - intros ->. apply Np. rewrite fprod_cons. ring.
    - apply IH; [|exact Hu]. intro Z. apply Np. rewrite fprod_cons, Z. ring.
  Qed.

  Lemma lp_run {A} g a Cx Cy (s : K -> lr_plan E k ((E * E) * (K -> (K * K) * A))) tr cs tr' (Kont : A -> list K -> Prop) :
    dgens_new n stream = Ok g -> answers H tr cs -> (S (k + 1) <= length cs)%nat ->
    let '(LR, x, cs') := lr_sent (s (nth 0 cs 0)) (skipn 1 cs) in
    let '((dl, be), s') := x in let '((z1, z2), y) := s' (nth 0 cs' 0) in
    lp_verify H (MkLP (MkBP (map fst LR) (map snd LR)) dl be z1 z2) n g tr a Cx Cy = Ok tr' ->
    (answers H tr' (skipn 1 cs') -> length (skipn 1 cs') = (length cs - S (k + 1))%nat -> Kont y (skipn 1 cs')) ->
    length a = n /\ lp_holds a Cx Cy s cs Kont.
  Proof.
    intros Eg An Lc. rewrite dgens_new_ok in Eg. injection Eg as <-. set (r := nth 0 cs 0).
    pose proof (lr_sent_length k _ (s r) (skipn 1 cs)) as [LL EC].
    pose proof (fun gs a P Kont => lr_run k _ (s r) gs a P (skipn 1 cs) Kont) as RUN.
    destruct (lr_sent (s r) (skipn 1 cs)) as [[LR x] cs'] eqn:Es. cbn [fst snd] in LL, EC. destruct x as [[dl be] s'].
    destruct (s' (nth 0 cs' 0)) as [[z1 z2] y] eqn:Ey. intros X KK.
    unfold lp_verify in X. cbn [dgn dgN dg1 lp_bullet] in X. rewrite Nat.eqb_refl in X. destruct (Nat.eqb_spec (length a) n) as [La|]; [|discriminate X]. split; [exact La|].
    unfold challenge in X. set (tr1 := app_scalars "a" a _) in X.
    assert (A1 : asked (MChal "r" :: tr1) = (asked tr + 1)%nat) by (unfold tr1; rewrite asked_cons, asked_scalars; unfold app_point, proto; rewrite !asked_cons; cbn [is_chal]; lia).
    rewrite (An (MChal "r" :: tr1) 0%nat) in X by lia. fold r in X. rewrite gens_scale_ok in X by reflexivity. cbn [bind gn gG gh map] in X.
    destruct (unpack Cx) as [Xp| |] eqn:DX; try discriminate X. cbn [bind] in X. destruct (unpack Cy) as [Yp| |] eqn:DY; try discriminate X. cbn [bind] in X.
    apply unpack_inv in DX. apply unpack_inv in DY. set (Q := gmul r (stream n)) in *. unfold bullet_verify in X.
    set (pf := MkBP (map fst LR) (map snd LR)) in *. assert (LP : length (bp_L pf) = k) by (cbn; now rewrite map_length).
    destruct (lr_challenges LR (MChal "r" :: tr1) (skipn 1 cs)) as [C1 C2]; [now apply (answers_skip H tr)|rewrite skipn_length; lia|]. rewrite LL in C1, C2.
    set (us := firstn k (skipn 1 cs)) in *. assert (Lu : length us = k) by (apply firstn_length_le; rewrite skipn_length; lia).
    destruct (bullet_challenges H LR (MChal "r" :: tr1)) as [us' tr2] eqn:Ech. cbn [fst snd] in C1, C2. subst us'.
    assert (ZV : (k < 32)%nat /\ forall u, In u us -> u <> 0).
    { unfold verification_scalars in X. rewrite LP in X. destruct (Nat.leb_spec 32 k) as [B|B]; [discriminate X|]. split; [exact B|].
      unfold pow2 in X. fold n in X. rewrite Nat.eqb_refl in X. cbn [negb] in X. cbn [bp_L bp_R pf] in X. rewrite combine_fst_snd, Ech in X. unfold batch_inv in X.
      destruct (feqb_spec K (fprod us) 0) as [Z|Z]; [discriminate X|]. now apply fprod_nz. }
    destruct ZV as [B32 Nz].
    pose proof (verification_scalars_ok H pf (MChal "r" :: tr1) us tr2) as V. rewrite LP in V. fold n in V.
    rewrite V in X; [|exact B32| |exact Lu|exact Nz]; [|cbn [bp_L bp_R pf]; now rewrite combine_fst_snd].
    cbn [bind] in X. clear V. cbn [bp_L bp_R pf] in X.
    destruct (mapM unpack (map fst LR)) as [Ls| |] eqn:EL; try discriminate X. cbn [bind] in X. destruct (mapM unpack (map snd LR)) as [Rs| |] eqn:ER; try discriminate X. cbn [bind] in X.
    apply mapM_pt in EL. apply mapM_pt in ER. rewrite map_map in EL, ER.
    rewrite msm_ok in X by (rewrite !tab_length; lia). cbn [bind] in X. unfold inner_product in X. rewrite tab_length, La, Nat.eqb_refl in X. cbn [bind] in X.
    rewrite msm_ok in X by (subst Ls Rs; rewrite !app_length, !map_length; cbn [length]; lia). cbn [bind lp_delta lp_beta lp_z1 lp_z2] in X.
    rewrite !lincomb_app in X by (subst Ls Rs; rewrite !map_length; lia).
    set (tr3 := app_point "beta" _ _) in X. assert (A3 : asked (MChal "c" :: tr3) = (asked tr + S (S k))%nat) by (rewrite asked_cons; unfold tr3, app_point; rewrite !asked_cons; cbn [is_chal]; lia).
    assert (Ec : H (MChal "c" :: tr3) = nth 0 cs' 0).
    { rewrite (An _ (S k)) by lia. rewrite EC, !skipn_nth. f_equal. lia. }
    rewrite Ec in X.
    destruct (unpack be) as [bp| |] eqn:Eb; try discriminate X. cbn [bind] in X. destruct (unpack dl) as [dp| |] eqn:Ed; try discriminate X. cbn [bind] in X. rewrite idx_0 in X. cbn [bind] in X.
    apply unpack_inv in Eb. apply unpack_inv in Ed.
    cbv zeta in X. match type of X with (if ?b then _ else _) = _ => destruct b eqn:Eq; [|discriminate X] end. apply eeqb_comp in Eq. injection X as Etr.
    unfold lp_holds. fold r. eapply RUN; [apply tab_length|exact La|rewrite skipn_length; lia|exact Nz|].
    cbn beta. rewrite Ey. cbn [hd]. fold us. fold n. split.
    - intros i Hi. apply (f_equal (co i)) in Eq. rewrite (point_some _ _ Eb), (point_some _ _ Ed), (point_some _ _ DX), (point_some _ _ DY). fold Q.
      rewrite EL, ER in Eq. cbn [lincomb] in Eq. unfold pt in Eq. unfold point.
      repeat (rewrite (co_add _ _ _ Co) in Eq || rewrite (co_mul _ _ _ Co) in Eq). repeat (rewrite (co_add _ _ _ Co) || rewrite (co_mul _ _ _ Co)). rewrite ?(co_0 N stream co Co) in Eq.
      match type of Eq with ?l = ?r0 => transitivity l; [|transitivity r0; [exact Eq|]] end; ring.
    - apply KK.
      + rewrite <- Etr. apply (answers_same H (MChal "c" :: tr3)); [|reflexivity]. rewrite EC. rewrite skipn_skipn, skipn_skipn. apply (answers_skip H tr); [exact An|]. rewrite A3. lia.
      + rewrite EC, !skipn_length. lia.
  Qed.
End AV.
