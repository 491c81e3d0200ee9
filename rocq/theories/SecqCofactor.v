(** Every point of secq256k1 is a multiple of the base point: the cosets of the group
    generated by the base point are too large for there to be three of them, and there
    are not two because no point has order two. *)
From Coq Require Import ZArith Znumtheory List Bool Lia.
From Verif Require Import Base Fermat Primes Field Zq CurveSpec CurveProofs Secq SecqOrder.
Import ListNotations.
Local Open Scope Z_scope.

Local Notation pt := (option (Fn * Fn)).
Local Notation on P := (on_curve secq P = true).

(** 0, 1, ..., p-1 *)
Definition below (m : Z) : list Z := map Z.of_nat (seq 0 (Z.to_nat m)).
Lemma in_below m x : In x (below m) <-> 0 <= x < m.
Proof.
  unfold below. rewrite in_map_iff. split.
  - intros (i & <- & Hi). apply in_seq in Hi. lia.
  - intro Hx. exists (Z.to_nat x). split; [lia|]. apply in_seq. lia.
Qed.
Lemma NoDup_below m : NoDup (below m).
Proof.
  unfold below. apply FinFun.Injective_map_NoDup; [|apply seq_NoDup]. intros a b. apply Nat2Z.inj.
Qed.
Lemma below_length m : 0 <= m -> Z.of_nat (length (below m)) = m.
Proof. intro H. unfold below. rewrite map_length, seq_length. lia. Qed.

(** the x-coordinate and the parity of y determine a point *)
Definition code (P : pt) : Z * bool := match P with Some (x, y) => (zval x, Z.odd (zval y)) | None => (-1, false) end.
Lemma zval_opp (y : Fn) : y <> f0 -> zval (fopp y) = n - zval y.
Proof.
  intro N. change (zval (fopp y)) with ((- zval y) mod n).
  pose proof (zval_range n y) as R.
  assert (zval y <> 0) by (intro E; apply N; apply zq_eq; rewrite E; reflexivity).
  symmetry. apply Z.mod_unique with (-1); [left; lia|ring].
Qed.
Lemma code_inj P Q : on P -> on Q -> code P = code Q -> P = Q.
Proof.
  intros HP HQ E. destruct P as [[x y]|], Q as [[x' y']|]; cbn in E.
  - assert (Ex : x = x') by (apply zq_eq; congruence). subst x'.
    destruct (same_x secq _ _ _ HP HQ) as [->| ->]; [reflexivity|].
    exfalso. pose proof (on_nz secq _ _ HP) as N. rewrite (zval_opp y N) in E.
    assert (O : Z.odd (zval y) = Z.odd (n - zval y)) by congruence.
    rewrite Z.odd_sub in O. change (Z.odd n) with true in O. destruct (Z.odd (zval y)); discriminate.
  - exfalso. pose proof (zval_range n x). assert (zval x = -1) by congruence. lia.
  - exfalso. pose proof (zval_range n x'). assert (-1 = zval x') by congruence. lia.
  - reflexivity.
Qed.

Lemma pairs_bound (l : list (Z * bool)) (B : list Z) m : Z.of_nat (length B) = m -> NoDup l ->
  incl l ((-1, false) :: list_prod B [true; false]) -> Z.of_nat (length l) <= 2 * m + 1.
Proof.
  intros HB N I. pose proof (NoDup_incl_length N I) as L. cbn [length] in L. rewrite prod_length in L. cbn [length] in L. lia.
Qed.
Lemma code_in (B : list Z) P : (forall x : Fn, In (zval x) B) -> In (code P) ((-1, false) :: list_prod B [true; false]).
Proof.
  intro H. destruct P as [[x y]|]; [|left; reflexivity]. right. apply in_prod; [apply H|]. destruct (Z.odd (zval y)); cbn; tauto.
Qed.
(** at most 2p + 1 points *)
Lemma count (l : list pt) : NoDup l -> (forall P, In P l -> on P) -> Z.of_nat (length l) <= 2 * n + 1.
Proof.
  intros N H.
  assert (Np : NoDup (map code l)).
  { induction N as [|a l Ha N IH]; [constructor|]. cbn. constructor.
    - intro I. apply in_map_iff in I. destruct I as (b & E & I). apply Ha.
      rewrite (code_inj a b); [exact I|apply H; left; reflexivity|apply H; right; exact I|symmetry; exact E].
    - apply IH. intros P I. apply H. right. exact I. }
  rewrite <- (map_length code). apply (pairs_bound _ (below n) n); [apply below_length; discriminate|exact Np|].
  intros c I. apply in_map_iff in I. destruct I as (P & <- & I).
  apply code_in. intro x. apply in_below, zval_range.
Qed.

Lemma on_base k : on (emul k base). Proof. exact (on_emul secq k base base_on). Qed.
Lemma base_some : base <> None. Proof. discriminate. Qed.
Lemma base_eq a b : 0 <= a < p -> 0 <= b < p -> emul a base = emul b base -> a = b.
Proof.
  intros Ha Hb E. apply (order_eq base base_on base_order base_some) in E. destruct E as [d E].
  assert (d = 0) by nia. lia.
Qed.
Section Cosets.
Variable B : list Z.
Hypothesis HB : forall x, In x B <-> 0 <= x < p.
Hypothesis NB : NoDup B.
Hypothesis LB : Z.of_nat (length B) = p.
Definition coset (Q : pt) : list pt := map (fun k => eadd (emul k base) Q) B.
Lemma coset_on Q : on Q -> forall P, In P (coset Q) -> on P.
Proof. intros HQ P I. apply in_map_iff in I. destruct I as (k & <- & _). apply on_add; [exact (on_base k)|exact HQ]. Qed.
Lemma coset_length Q : Z.of_nat (length (coset Q)) = p.
Proof. unfold coset. rewrite map_length. exact LB. Qed.
Lemma coset_NoDup Q : on Q -> NoDup (coset Q).
Proof.
  intro HQ. unfold coset. assert (N := NB).
  assert (R : forall k, In k B -> 0 <= k < p) by (intro k; apply HB). clear HB NB LB.
  induction N as [|a l Ha N IH]; [constructor|]. cbn. constructor.
  - intro I. apply in_map_iff in I. destruct I as (b & E & I). apply Ha.
    apply (cancel_r secq) in E; try apply on_base; [|exact HQ].
    rewrite (base_eq a b); [exact I|apply R; left; reflexivity|apply R; right; exact I|symmetry; exact E].
  - apply IH. intros k I. apply R. right. exact I.
Qed.

(** two points whose cosets meet differ by a multiple of the base point *)
Lemma coset_meet P Q X : on P -> on Q -> In X (coset P) -> In X (coset Q) -> exists k, P = eadd (emul k base) Q.
Proof.
  intros HP HQ I J. apply in_map_iff in I, J. destruct I as (a & <- & _), J as (b & E & _).
  exists (b - a). rewrite (emul_sub secq) by exact base_on.
  assert (Oa := on_base a). assert (Ob := on_base b). assert (On := on_opp secq _ Oa).
  apply (cancel_l secq) with (emul a base); try assumption; [repeat apply on_add; assumption|].
  rewrite <- E. rewrite <- !(add_assoc secq) by (repeat apply on_add; assumption).
  rewrite (add_comm secq (emul a base) (emul b base)) by assumption.
  rewrite (add_sub secq) by assumption. reflexivity.
Qed.

Lemma app_NoDup {A} (l m : list A) : NoDup l -> NoDup m -> (forall x, In x l -> In x m -> False) -> NoDup (l ++ m).
Proof.
  induction 1 as [|a l Ha N IH]; intros M D; [exact M|]. cbn. constructor.
  - rewrite in_app_iff. intros [I|I]; [exact (Ha I)|]. exact (D a (or_introl eq_refl) I).
  - apply IH; [exact M|]. intros x I J. exact (D x (or_intror I) J).
Qed.

Lemma all_multiples_B P : on P -> exists k, 0 <= k < p /\ P = emul k base.
Proof.
  intro HP.
  destruct (in_dec (pt_dec (K := Fn)) P (coset None)) as [I|I].
  { apply in_map_iff in I. destruct I as (k & <- & I). exists k. split; [apply HB, I|]. apply add_0_r. }
  exfalso.
  assert (NG : forall k, P <> emul k base).
  { intros k ->. apply I. apply in_map_iff. exists (k mod p). split.
    - rewrite add_0_r. apply (emul_mod base base_on base_order base_some).
    - apply HB, Z.mod_pos_bound. reflexivity. }
  assert (H2 : on (eadd P P)) by (apply on_add; exact HP).
  assert (H0 : on (None : pt)) by reflexivity.
  assert (N2 : forall k, eadd P P <> emul k base).
  { intros k E.
    (* k G = 2 j G *)
    assert (exists j, emul k base = eadd (emul j base) (emul j base)) as [j Ej].
    { exists (k * ((p + 1) / 2)). rewrite <- (emul_add secq) by exact base_on.
      apply (order_eq base base_on base_order base_some). exists (- k).
      replace (k * ((p + 1) / 2) + k * ((p + 1) / 2)) with (k * (2 * ((p + 1) / 2))) by ring.
      change (2 * ((p + 1) / 2)) with (p + 1). ring. }
    rewrite Ej in E. assert (Oj := on_base j). assert (Onj := on_opp secq _ Oj).
    apply (NG j). apply (cancel_r secq) with (eopp (emul j base)); try assumption. rewrite add_opp.
    apply (self_opp secq); [apply on_add; assumption|].
    rewrite (opp_add secq), opp_opp by assumption.
    apply (cancel_l secq) with P; [exact HP|apply on_add; assumption|apply on_add; [apply on_opp|]; assumption|].
    rewrite <- !(add_assoc secq) by (try apply on_opp; assumption). rewrite E, add_opp, add_0_l.
    apply (add_sub secq); assumption. }
  pose proof (count (coset None ++ coset P ++ coset (eadd P P))) as C.
  assert (D1 : forall X, In X (coset None) -> In X (coset P) -> False).
  { intros X A A2. destruct (coset_meet P None X HP H0 A2 A) as [k E]. apply (NG k). rewrite E. apply add_0_r. }
  assert (D2 : forall X, In X (coset None) -> In X (coset (eadd P P)) -> False).
  { intros X A A2. destruct (coset_meet _ None X H2 H0 A2 A) as [k E]. apply (N2 k). rewrite E. apply add_0_r. }
  assert (D3 : forall X, In X (coset P) -> In X (coset (eadd P P)) -> False).
  { intros X A A2. destruct (coset_meet _ P X H2 HP A2 A) as [k E]. apply (NG k).
    apply (cancel_r secq) in E; try assumption. apply on_base. }
  rewrite !app_length, !Nat2Z.inj_add, !coset_length in C.
  assert (3 * p <= 2 * n + 1).
  { replace (3 * p) with (p + (p + p)) by ring. apply C.
    - apply app_NoDup; [apply coset_NoDup; exact H0|apply app_NoDup; [apply coset_NoDup; exact HP|apply coset_NoDup; exact H2|exact D3]|].
      intros X A A2. apply in_app_iff in A2. destruct A2 as [A2|A2]; [exact (D1 X A A2)|exact (D2 X A A2)].
    - intros X A. rewrite !in_app_iff in A. destruct A as [A|[A|A]]; revert A; apply coset_on; assumption. }
  revert H. clear. unfold p, n. lia.
Qed.

End Cosets.

Theorem all_multiples P : on P -> exists k, 0 <= k < p /\ P = emul k base.
Proof. exact (all_multiples_B (below p) (in_below p) (NoDup_below p) (below_length p ltac:(discriminate)) P). Qed.
Corollary all_order P : on P -> emul p P = None.
Proof.
  intro H. destruct (all_multiples P H) as (k & _ & ->). rewrite <- (emul_mul secq) by exact base_on.
  rewrite Z.mul_comm, (emul_mul secq), base_order, emul_0 by exact base_on. reflexivity.
Qed.
