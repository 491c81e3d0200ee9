(** Timestamps: counts, multisets, and why equal multisets make all reads right. *)
From Coq Require Import String List Arith Lia Bool Field Ring Permutation.
From Verif Require Import Base ListAux Field Vec MathModel PolyModel PolySpec PolyProofs PolyImp CommitModel SigmaModel SumModel R1csModel ProdModel ProdProofs SparModel SparSpec.
Import ListNotations.

Section Ts.
  Lemma ts_ops_app a : forall b au, ts_ops (a ++ b) au = (do q <- ts_ops a au; do q' <- ts_ops b (snd q); Ok (fst q ++ fst q', snd q')).
  Proof.
    induction a as [|x a IH]; intros b au; cbn [app ts_ops bind].
    - cbn [snd fst app]. destruct (ts_ops b au) as [[r s]| |]; reflexivity.
    - destruct (Nat.ltb x (length au)); [|reflexivity]. destruct (idx au x); [|reflexivity..]. cbn [bind]. rewrite IH.
      destruct (ts_ops a (upd au x (a0 + 1))) as [[r s]| |]; [|reflexivity..]. cbn [bind fst snd].
      destruct (ts_ops b s) as [[r' s']| |]; reflexivity.
  Qed.
  Lemma upd_length {A} (l : list A) : forall i x, length (upd l i x) = length l.
  Proof. induction l as [|y l IH]; intros [|i] x; cbn; [reflexivity..|]. rewrite IH. reflexivity. Qed.
  Definition rd (au : list nat) (ops : list nat) (j : nat) : nat := nth (nth j ops 0) au 0 + earlier ops j.
  Lemma ts_ops_ok ops : forall au, (forall x, In x ops -> x < length au) ->
    ts_ops ops au = Ok (map (rd au ops) (seq 0 (length ops)), map (fun a => nth a au 0 + total ops a) (seq 0 (length au))).
  Proof.
    induction ops as [|x ops IH]; intros au HI; cbn [ts_ops].
    - cbn [length seq map]. do 2 f_equal. apply (list_ext _ _ 0); [rewrite map_length, seq_length; reflexivity|].
      intros i Hi. unfold total. cbn. change (map (fun a => nth a au 0 + 0) (seq 0 (length au))) with (tab (length au) (fun a => nth a au 0 + 0)). rewrite nth_tab by exact Hi. lia.
    - assert (Hx : x < length au) by (apply HI; left; reflexivity). destruct (Nat.ltb_spec x (length au)); [|lia].
      rewrite (idx_nth au x 0) by exact Hx. cbn [bind]. rewrite IH by (rewrite upd_length; intros y Hy; apply HI; right; exact Hy).
      cbn [bind fst snd]. rewrite upd_length. do 2 f_equal.
      + cbn [length seq map]. f_equal; [unfold rd, earlier; cbn; lia|]. rewrite <- seq_shift, map_map. apply map_ext_in. intros j Hj. apply in_seq in Hj.
        unfold rd, earlier. cbn [nth firstn count_occ]. destruct (Nat.eq_dec x (nth j ops 0)) as [e|n].
        * rewrite <- e, nth_upd_same by exact Hx. lia.
        * rewrite nth_upd_other by exact n. reflexivity.
      + apply map_ext. intro a. unfold total. cbn [count_occ]. destruct (Nat.eq_dec x a) as [<-|n].
        * rewrite nth_upd_same by exact Hx. lia.
        * rewrite nth_upd_other by exact n. reflexivity.
  Qed.
  Lemma ts_ops_bad ops : forall au, (exists x, In x ops /\ length au <= x) -> ts_ops ops au = Panic.
  Proof.
    induction ops as [|y ops IH]; intros au (x & HI & Hx); [destruct HI|]. cbn [ts_ops].
    destruct (Nat.ltb_spec y (length au)) as [Hy|]; [|reflexivity]. rewrite (idx_nth au y 0) by exact Hy. cbn [bind].
    rewrite IH; [reflexivity|]. exists x. rewrite upd_length. destruct HI as [<-|HI]; [lia|]. split; assumption.
  Qed.
  Lemma ts_insts_ok insts : forall au, (do q <- ts_insts insts au; Ok (concat (fst q), snd q)) = ts_ops (concat insts) au.
  Proof.
    induction insts as [|ops insts IH]; intro au; cbn [ts_insts concat]; [reflexivity|]. rewrite ts_ops_app.
    destruct (ts_ops ops au) as [[r s]| |]; [|reflexivity..]. cbn [bind fst snd]. rewrite <- IH.
    destruct (ts_insts insts s) as [[r' s']| |]; reflexivity.
  Qed.
  Lemma ts_ops_len ops : forall au q, ts_ops ops au = Ok q -> length (fst q) = length ops /\ length (snd q) = length au.
  Proof.
    induction ops as [|x ops IH]; intros au q Hq; cbn [ts_ops] in Hq; [injection Hq as <-; split; reflexivity|].
    destruct (Nat.ltb x (length au)); [|discriminate]. destruct (idx au x); [|discriminate..]. cbn [bind] in Hq.
    destruct (ts_ops ops (upd au x (a + 1))) as [q'| |] eqn:E; [|discriminate..]. injection Hq as <-. destruct (IH _ _ E) as [A B]. rewrite upd_length in B.
    cbn. rewrite A, B. split; reflexivity.
  Qed.
  Lemma ts_insts_len insts : forall au q, ts_insts insts au = Ok q -> map (@length nat) (fst q) = map (@length nat) insts /\ length (snd q) = length au.
  Proof.
    induction insts as [|ops insts IH]; intros au q Hq; cbn [ts_insts] in Hq; [injection Hq as <-; split; reflexivity|].
    destruct (ts_ops ops au) as [p| |] eqn:E1; [|discriminate..]. cbn [bind] in Hq. destruct (ts_insts insts (snd p)) as [p'| |] eqn:E2; [|discriminate..].
    injection Hq as <-. destruct (ts_ops_len _ _ _ E1) as [A B]. destruct (IH _ _ E2) as [A' B']. cbn [fst snd map]. rewrite A, A', B', B. split; reflexivity.
  Qed.
End Ts.

Section Multi.
  Context {K : Fld}.
  Local Open Scope fld_scope.
  Add Field Ksm : (fth K).

  Definition cells (mem : list K) (au : list nat) (n : nat) := map (fun a => (a, nth a mem 0, nth a au 0%nat)) (seq 0 n).
  Lemma cells_upd mem au x r n : (x < n)%nat -> (n = length au)%nat -> nth x au 0%nat = r ->
    Permutation (cells mem au n ++ [(x, nth x mem 0, S r)]) ((x, nth x mem 0, r) :: cells mem (upd au x (S r)) n).
  Proof.
    intros Hx Hn Hr. assert (E : seq 0 n = seq 0 x ++ x :: seq (S x) (n - S x)).
    { replace n with (x + S (n - S x))%nat at 1 by lia. rewrite seq_app. reflexivity. }
    unfold cells. rewrite E, !map_app. cbn [map]. rewrite Hr, nth_upd_same by lia.
    assert (Q : forall l, (forall y, In y l -> y <> x) -> map (fun a => (a, nth a mem 0, nth a (upd au x (S r)) 0%nat)) l = map (fun a => (a, nth a mem 0, nth a au 0%nat)) l).
    { intros l Hl. apply map_ext_in. intros y Hy. rewrite nth_upd_other; [reflexivity|]. intro e. apply (Hl y Hy). symmetry. exact e. }
    rewrite !Q by (intros y Hy; apply in_seq in Hy; lia). rewrite <- app_assoc. cbn [app].
    set (A := map _ (seq 0 x)). set (B := map _ (seq (S x) (n - S x))).
    rewrite <- Permutation_middle. constructor. apply Permutation_app_head. rewrite Permutation_app_comm. reflexivity.
  Qed.
  Lemma perm_gen mem ops : forall au n, (n = length au)%nat -> (forall x, In x ops -> (x < n)%nat) ->
    Permutation (cells mem au n ++ map (fun j => let a := nth j ops 0%nat in (a, nth a mem 0, S (rd au ops j))) (seq 0 (length ops)))
                (map (fun j => let a := nth j ops 0%nat in (a, nth a mem 0, rd au ops j)) (seq 0 (length ops)) ++
                 map (fun a => (a, nth a mem 0, (nth a au 0 + total ops a)%nat)) (seq 0 n)).
  Proof.
    induction ops as [|x ops IH]; intros au n Hn HI.
    - cbn [length seq map app]. rewrite app_nil_r. unfold cells, total. cbn. erewrite map_ext; [reflexivity|]. intro a. cbn. rewrite Nat.add_0_r. reflexivity.
    - assert (Hx : (x < n)%nat) by (apply HI; left; reflexivity). cbn [length seq map]. rewrite <- seq_shift, !map_map. cbn zeta.
      change (nth 0 (x :: ops) 0%nat) with x. assert (E0 : rd au (x :: ops) 0 = nth x au 0%nat) by (unfold rd, earlier; cbn; lia). rewrite !E0.
      set (r := nth x au 0%nat).
      assert (ER : forall j, rd au (x :: ops) (S j) = rd (upd au x (S r)) ops j).
      { intro j. unfold rd, earlier. cbn [nth firstn count_occ]. destruct (Nat.eq_dec x (nth j ops 0%nat)) as [e|ne].
        - rewrite <- e, nth_upd_same by lia. unfold r. lia.
        - rewrite nth_upd_other by exact ne. reflexivity. }
      assert (ET : forall a, (nth a au 0 + total (x :: ops) a = nth a (upd au x (S r)) 0 + total ops a)%nat).
      { intro a. unfold total. cbn [count_occ]. destruct (Nat.eq_dec x a) as [<-|ne].
        - rewrite nth_upd_same by lia. unfold r. lia.
        - rewrite nth_upd_other by exact ne. reflexivity. }
      rewrite (map_ext (fun a => (a, nth a mem 0, (nth a au 0 + total (x :: ops) a)%nat)) (fun a => (a, nth a mem 0, (nth a (upd au x (S r)) 0 + total ops a)%nat))) by (intro a; rewrite ET; reflexivity).
      rewrite (map_ext (fun y => (nth (S y) (x :: ops) 0%nat, nth (nth (S y) (x :: ops) 0%nat) mem 0, S (rd au (x :: ops) (S y)))) (fun j => (nth j ops 0%nat, nth (nth j ops 0%nat) mem 0, S (rd (upd au x (S r)) ops j)))) by (intro y; rewrite ER; reflexivity).
      rewrite (map_ext (fun y => (nth (S y) (x :: ops) 0%nat, nth (nth (S y) (x :: ops) 0%nat) mem 0, rd au (x :: ops) (S y))) (fun j => (nth j ops 0%nat, nth (nth j ops 0%nat) mem 0, rd (upd au x (S r)) ops j))) by (intro y; rewrite ER; reflexivity).
      specialize (IH (upd au x (S r)) n ltac:(rewrite upd_length; exact Hn) ltac:(intros y Hy; apply HI; right; exact Hy)). cbn zeta in IH.
      cbn [app]. rewrite <- IH. clear IH. pose proof (cells_upd mem au x r n Hx Hn eq_refl) as Q.
      set (W := map _ (seq 0 (length ops))). change ((x, nth x mem 0, S r) :: W) with ([(x, nth x mem 0, S r)] ++ W). rewrite app_assoc, Q. reflexivity.
  Qed.
  Lemma mem_perm (mem : list K) (accs : list nat) : (forall x, In x accs -> (x < length mem)%nat) ->
    Permutation (at_start mem ++ writes mem accs) (reads mem accs ++ at_end mem accs).
  Proof.
    intro HI. pose proof (perm_gen mem accs (repeat 0%nat (length mem)) (length mem) ltac:(rewrite repeat_length; reflexivity) HI) as P.
    assert (Z : forall a, nth a (repeat 0%nat (length mem)) 0%nat = 0%nat).
    { intro a. destruct (Nat.lt_ge_cases a (length (repeat 0%nat (length mem)))) as [L|L].
      - apply (repeat_spec (length mem) 0%nat). apply nth_In. exact L.
      - apply nth_overflow. exact L. }
    unfold cells, at_start, at_end, reads, writes in *. cbn zeta in P. unfold rd in P.
    erewrite (map_ext _ (fun a => (a, nth a mem 0, 0%nat))) in P by (intro a; rewrite Z; reflexivity).
    erewrite (map_ext (fun a => (a, nth a mem 0, (nth a (repeat 0 (length mem)) 0 + total accs a)%nat)) (fun a => (a, nth a mem 0, total accs a))) in P by (intro a; rewrite Z; reflexivity).
    erewrite (map_ext (fun j => (nth j accs 0%nat, nth (nth j accs 0%nat) mem 0, S (nth (nth j accs 0%nat) (repeat 0%nat (length mem)) 0%nat + earlier accs j)%nat))) in P by (intro j; rewrite Z; reflexivity).
    erewrite (map_ext (fun j => (nth j accs 0%nat, nth (nth j accs 0%nat) mem 0, (nth (nth j accs 0) (repeat 0 (length mem)) 0 + earlier accs j)%nat))) in P by (intro j; rewrite Z; reflexivity).
    exact P.
  Qed.
  Lemma fprod_perm (a b : list K) : Permutation a b -> fprod a = fprod b.
  Proof. induction 1; rewrite ?fprod_cons in *; try congruence. ring. Qed.

  (** ** the write set is a set *)
  Lemma count_lt (l : list nat) : forall i j, (i < j)%nat -> (j < length l)%nat -> nth i l 0%nat = nth j l 0%nat -> (earlier l i < earlier l j)%nat.
  Proof.
    induction l as [|x l IH]; intros i j Hij Hj E; [cbn in Hj; lia|]. unfold earlier in *. destruct j as [|j]; [lia|]. cbn [length] in Hj. destruct i as [|i].
    - cbn [nth firstn count_occ] in *. rewrite E. destruct (Nat.eq_dec (nth j l 0%nat) (nth j l 0%nat)); [lia|congruence].
    - cbn [nth firstn count_occ] in *. specialize (IH i j ltac:(lia) ltac:(lia) E). rewrite E in *. destruct (Nat.eq_dec x (nth j l 0%nat)); lia.
  Qed.
  Lemma writes_nodup (mem : list K) accs : NoDup (writes mem accs).
  Proof.
    unfold writes. assert (Q : forall l, NoDup l -> (forall j, In j l -> (j < length accs)%nat) -> NoDup (map (fun j => let a := nth j accs 0%nat in (a, nth a mem 0, S (earlier accs j))) l)).
    { induction l as [|i l IH]; intros ND B; cbn [map]; constructor.
      - intro I. apply in_map_iff in I. destruct I as (j & e & I). cbn zeta in e. injection e as e1 _ e2.
        inversion ND as [|? ? N1 N2]; subst. assert (i <> j) by (intros ->; exact (N1 I)). pose proof (B i (or_introl eq_refl)). pose proof (B j (or_intror I)).
        destruct (Nat.lt_total i j) as [L|[L|L]]; [pose proof (count_lt accs i j L ltac:(assumption) ltac:(congruence))|congruence|pose proof (count_lt accs j i L ltac:(assumption) ltac:(congruence))]; lia.
      - apply IH; [inversion ND; assumption|]. intros j I. apply B. right. exact I. }
    apply Q; [apply seq_NoDup|]. intros j I. apply in_seq in I. lia.
  Qed.

  (** ** soundness: equal multisets make every read right.  Timestamps are field elements, so the
      number of accesses must stay below the characteristic. *)
  Lemma fsum_perm (a b : list K) : Permutation a b -> fsum a = fsum b.
  Proof. induction 1; rewrite ?fsum_cons in *; try congruence. ring. Qed.
  Lemma fsum_shift (l : list K) : fsum (map (fun s => s + 1) l) = fsum l + of_nat (length l).
  Proof. induction l as [|x l IH]; cbn [map length of_nat]; [rewrite fsum_nil; ring|]. rewrite !fsum_cons, IH. ring. Qed.
  Lemma perm_filter {A} (f : A -> bool) (a b : list A) : Permutation a b -> Permutation (filter f a) (filter f b).
  Proof.
    induction 1 as [|x a b P IH|x y a|a b c P1 IH1 P2 IH2]; cbn [filter].
    - constructor.
    - destruct (f x); [constructor|]; exact IH.
    - destruct (f x), (f y); try constructor; reflexivity.
    - etransitivity; eassumption.
  Qed.
  Lemma filter_none {A} (f : A -> bool) (l : list A) : (forall x, In x l -> f x = false) -> filter f l = [].
  Proof. induction l as [|x l IH]; intro HF; [reflexivity|]. cbn. rewrite (HF x (or_introl eq_refl)). apply IH. intros y I. apply HF. right. exact I. Qed.
  Lemma filter_map {A B} (f : B -> bool) (g : A -> B) (l : list A) : filter f (map g l) = map g (filter (fun x => f (g x)) l).
  Proof. induction l as [|x l IH]; [reflexivity|]. cbn. destruct (f (g x)); cbn; rewrite IH; reflexivity. Qed.

  Lemma mem_sound (init audit : list (K * K * K)) (ops : list (K * K * K)) (val : K -> K) :
    (forall n, (1 <= n <= length ops)%nat -> (of_nat n : K) <> 0) ->
    (forall a v t, In (a, v, t) init \/ In (a, v, t) audit -> v = val a) ->
    Permutation (init ++ map (fun '(a, v, t) => (a, v, t + 1)) ops) (ops ++ audit) ->
    forall a v t, In (a, v, t) ops -> v = val a.
  Proof.
    intros CH ND P a v t I. destruct (feqb v (val a)) eqn:EV; [apply feqb_true, EV|exfalso].
    assert (NE : v <> val a) by (intro e; rewrite e in EV; rewrite (feqb_refl K) in EV; discriminate).
    set (f := fun x : K * K * K => let '(a', v', _) := x in feqb a' a && feqb v' v).
    apply (perm_filter f) in P. rewrite !filter_app in P.
    assert (F0 : forall x, f x = true -> fst (fst x) = a /\ snd (fst x) = v).
    { intros [[a' v'] t'] Hf. unfold f in Hf. apply andb_prop in Hf. destruct Hf as [A B]. apply feqb_true in A, B. split; assumption. }
    assert (FI : filter f init = []).
    { apply filter_none. intros [[a' v'] t'] J. destruct (f (a', v', t')) eqn:Ef; [|reflexivity]. destruct (F0 _ Ef) as [A B]. cbn in A, B. subst. exfalso. apply NE. eapply ND. left. exact J. }
    assert (FA : filter f audit = []).
    { apply filter_none. intros [[a' v'] t'] J. destruct (f (a', v', t')) eqn:Ef; [|reflexivity]. destruct (F0 _ Ef) as [A B]. cbn in A, B. subst. exfalso. apply NE. eapply ND. right. exact J. }
    rewrite FI, FA, app_nil_r in P. cbn [app] in P. rewrite filter_map in P.
    assert (EF : filter (fun x => f (let '(a0, v0, t0) := x in (a0, v0, t0 + 1))) ops = filter f ops).
    { apply filter_ext. intros [[a' v'] t']. reflexivity. }
    rewrite EF in P. set (S0 := filter f ops) in *.
    apply (Permutation_map snd) in P. rewrite map_map in P. apply fsum_perm in P.
    replace (map (fun x : K * K * K => snd (let '(a0, v0, t0) := x in (a0, v0, t0 + 1))) S0) with (map (fun s => s + 1) (map snd S0)) in P by (rewrite map_map; apply map_ext; intros [[? ?] ?]; reflexivity).
    rewrite fsum_shift, map_length in P.
    assert (Z : of_nat (length S0) = (0 : K)) by (transitivity (fsum (map snd S0) + of_nat (length S0) - fsum (map snd S0)); [ring|rewrite P; ring]).
    assert (IS : In (a, v, t) S0) by (apply filter_In; split; [exact I|unfold f; rewrite !(feqb_refl K); reflexivity]).
    assert (L1 : (1 <= length S0)%nat) by (destruct S0; [destruct IS|cbn; lia]).
    assert (L2 : (length S0 <= length ops)%nat). { unfold S0. clear. induction ops as [|x l IH]; [constructor|]. cbn. destruct (f x); cbn; lia. }
    exact (CH _ (conj L1 L2) Z).
  Qed.
End Multi.
