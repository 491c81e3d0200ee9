(** Permuted random numbers are as random as before: for every test, as many lists pass after the
    permutation as before it. *)
From Coq Require Import String List Arith Bool ZArith Lia Permutation.
From Verif Require Import Base ListAux Field Vec MathModel PolyModel R1csModel R1csApi CommitModel SigmaModel CommitSpec NizkModel NizkApi AgmSpec Zq ExSmall ZkSpec ZkApi.
Import ListNotations.

Section C.
  Context {K : Fld}.
  Lemma lists_in (Q : list K) n : forall l, In l (lists_over Q n) <-> length l = n /\ incl l Q.
  Proof.
    induction n as [|n IH]; intro l; cbn [lists_over].
    - split; [intros [<-|[]]; split; [reflexivity|intros x []]|]. intros [L _]. destruct l; [left; reflexivity|discriminate L].
    - rewrite in_flat_map. split.
      + intros (x & Hx & Hl). apply in_map_iff in Hl. destruct Hl as (l' & <- & Hl). apply IH in Hl. destruct Hl as [L I]. split; [cbn; congruence|].
        intros y [<-|Hy]; [exact Hx|apply I, Hy].
      + intros [L I]. destruct l as [|x l]; [discriminate L|]. injection L as L. exists x. split; [apply I; left; reflexivity|]. apply in_map_iff. exists l. split; [reflexivity|].
        apply IH. split; [exact L|]. intros y Hy. apply I. right. exact Hy.
  Qed.
  Lemma nodup_flat {A B} (f : A -> list B) (l : list A) : NoDup l -> (forall x, In x l -> NoDup (f x)) ->
    (forall x y b, In x l -> In y l -> In b (f x) -> In b (f y) -> x = y) -> NoDup (flat_map f l).
  Proof.
    induction 1 as [|x l Nx N IH]; intros F D; [constructor|]. cbn [flat_map].
    assert (IH' : NoDup (flat_map f l)) by (apply IH; [intros y Hy; apply F; right; exact Hy|intros y z b Hy Hz; apply D; right; assumption]).
    pose proof (F x (or_introl eq_refl)) as Fx.
    assert (Dx : forall b, In b (f x) -> ~ In b (flat_map f l)).
    { intros b Hb Hc. apply in_flat_map in Hc. destruct Hc as (y & Hy & Hc). apply Nx. rewrite (D x y b); [exact Hy|left; reflexivity|right; exact Hy|exact Hb|exact Hc]. }
    revert Fx Dx. generalize (f x). intro m. induction m as [|b m IHm]; intros Fx Dx; [exact IH'|]. inversion Fx as [|? ? Nb Nm]; subst. cbn [app]. constructor.
    - intro Hb. apply in_app_or in Hb. destruct Hb as [Hb|Hb]; [exact (Nb Hb)|exact (Dx b (or_introl eq_refl) Hb)].
    - apply IHm; [exact Nm|]. intros c Hc. apply Dx. right. exact Hc.
  Qed.
  Lemma lists_nodup (Q : list K) n : NoDup Q -> NoDup (lists_over Q n).
  Proof.
    intro N. induction n as [|n IH]; cbn [lists_over]; [constructor; [intros []|constructor]|]. apply nodup_flat; [exact N| |].
    - intros x _. apply FinFun.Injective_map_NoDup; [|exact IH]. intros u v X. now injection X.
    - intros x y b _ _ Hx Hy. apply in_map_iff in Hx. apply in_map_iff in Hy. destruct Hx as (u & <- & _). destruct Hy as (v & X & _). now injection X.
  Qed.
  Lemma permutes_count n (f : list K -> list K) (Q : list K) (T : list K -> bool) : permutes n f -> NoDup Q -> (forall x, In x Q) ->
    length (filter (fun l => T (f l)) (lists_over Q n)) = length (filter T (lists_over Q n)).
  Proof.
    intros [f' F] N A. set (L := lists_over Q n). assert (I : forall l, In l L <-> length l = n).
    { intro l. unfold L. rewrite lists_in. split; [intros [X _]; exact X|intro X; split; [exact X|intros x _; apply A]]. }
    assert (P : Permutation (map f L) L).
    { apply NoDup_Permutation.
      - assert (J : forall l l', In l L -> In l' L -> f l = f l' -> l = l').
        { intros l l' Hl Hl' X. apply I in Hl. apply I in Hl'. destruct (F l Hl) as (_ & _ & X1 & _). destruct (F l' Hl') as (_ & _ & X2 & _). congruence. }
        pose proof (lists_nodup Q n N) as NL. fold L in NL. clear I. induction NL as [|x l Nx NL IH]; [constructor|]. cbn [map]. constructor.
        + intro X. apply in_map_iff in X. destruct X as (y & X & Hy). apply Nx. rewrite (J x y); [exact Hy|left; reflexivity|right; exact Hy|symmetry; exact X].
        + apply IH. intros u v Hu Hv. apply J; right; assumption.
      - apply lists_nodup, N.
      - intro l. rewrite in_map_iff. split.
        + intros (u & <- & Hu). apply I. apply I in Hu. apply (F u Hu).
        + intro Hl. apply I in Hl. destruct (F l Hl) as (_ & X & _ & Y). exists (f' l). split; [exact Y|apply I, X]. }
    transitivity (length (filter T (map f L))).
    - generalize L. intro m. induction m as [|x m IH]; [reflexivity|]. cbn [map filter]. destruct (T (f x)); cbn [length]; rewrite IH; reflexivity.
    - clear I. induction P as [|x u v P IH|x y u|u v w P1 IH1 P2 IH2]; cbn [filter]; [reflexivity| | |congruence].
      + destruct (T x); cbn [length]; rewrite IH; reflexivity.
      + destruct (T x), (T y); reflexivity.
  Qed.
End C.

Section A.
  Context {K : Fld} {G : Mod K} {E : Enc G} {bytes : Type} (parse : bytes -> option K) (digest_of : r1cs K -> list nat).
  Local Open Scope fld_scope.
  Hypothesis two : (of_nat 2 : K) <> 0.
  Hypothesis three : (of_nat 3 : K) <> 0.
  Lemma api_nizk_counts nc nv ni (A B C : list (nat * nat * bytes)) (I : instance K (list nat)) (stream : nat -> G) (g : r1csgens G) (input : list K) (dl : gens G -> G -> K) :
    (1 <= nc)%nat -> instance_new parse digest_of nc nv ni A B C = Ok I -> nizkgens_new nv ni stream = Ok g ->
    (forall gs, In gs [rg1 g; rg3 g; rg4 g] -> forall P, gmul (dl gs P) (gh gs) = P) ->
    let a := Nat.log2_up (pad_cons nc) in let b := Nat.log2_up (pad_vars nv ni) in let k := (b - b / 2)%nat in
    let asks := concat (nizk_requests a b) in
    (k < 32)%nat ->
    forall (vars vars' cs Q : list K), instance_is_sat I vars input = Ok true -> instance_is_sat I vars' input = Ok true -> length cs = nizk_coins a b k ->
    NoDup Q -> (forall x, In x Q) ->
    exists out out' : list K -> nizk E,
    (forall H seed tr pf tr', nizk_prove H I vars input g seed tr = Ok (pf, tr') -> replies H tr' = replies H tr ++ cs -> pf = out (drawn H asks (tape_new "proof" seed))) /\
    (forall H seed tr pf tr', nizk_prove H I vars' input g seed tr = Ok (pf, tr') -> replies H tr' = replies H tr ++ cs -> pf = out' (drawn H asks (tape_new "proof" seed))) /\
    forall T : nizk E -> bool,
      length (filter (fun l => T (out l)) (lists_over Q (length asks))) = length (filter (fun l => T (out' l)) (lists_over Q (length asks))).
  Proof using two three.
    intros Hn HI Hg D a b k asks Hk vars vars' cs Q S S' Lc N F.
    destruct (api_nizk_zk (E:=E) parse digest_of two three nc nv ni A B C I stream g input dl Hn HI Hg D Hk) as [sim Z].
    destruct (Z vars cs S Lc) as (pad & P & X). destruct (Z vars' cs S' Lc) as (pad' & P' & X').
    exists (fun l => sim cs (pad l)), (fun l => sim cs (pad' l)). split; [exact X|]. split; [exact X'|]. intro T.
    etransitivity; [exact (permutes_count _ pad Q (fun l => T (sim cs l)) P N F)|]. symmetry. exact (permutes_count _ pad' Q (fun l => T (sim cs l)) P' N F).
  Qed.
End A.

(** the scalars of the small field, each once *)
Definition all_fs : list Fs := map (fun k => fs (Z.of_nat k)) (seq 0 (Z.to_nat 65537)).
Lemma fs_val z : (0 <= z < 65537)%Z -> @zval 65537 (fs z) = z.
Proof. intro R. change (z mod 65537 = z)%Z. apply Z.mod_small, R. Qed.
Lemma all_fs_ok : NoDup all_fs /\ forall x, In x all_fs.
Proof.
  split.
  - unfold all_fs. assert (R : forall k, In k (seq 0 (Z.to_nat 65537)) -> (0 <= Z.of_nat k < 65537)%Z) by (intros k Hk; apply in_seq in Hk; lia).
    revert R. generalize (seq_NoDup (Z.to_nat 65537) 0). generalize (seq 0 (Z.to_nat 65537)). intros l N. induction N as [|x l Nx N IH]; intro R; [constructor|]. cbn [map]. constructor.
    + intro X. apply in_map_iff in X. destruct X as (y & X & Hy). apply Nx. apply (f_equal (@zval 65537)) in X. rewrite !fs_val in X by (apply R; auto with datatypes). apply Nat2Z.inj in X. subst y. exact Hy.
    + apply IH. intros k Hk. apply R. right. exact Hk.
  - intro x. pose proof (zval_range 65537 x) as R. apply in_map_iff. exists (Z.to_nat (zval x)). split.
    + apply zq_eq. rewrite Z2Nat.id by apply R. apply fs_val, R.
    + apply in_seq. lia.
Qed.
