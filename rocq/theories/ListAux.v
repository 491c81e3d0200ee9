(** General lemmas about lists. *)
From Coq Require Import List Arith Lia Bool.
From Verif Require Import Base.
Import ListNotations.

Lemma skipn_skipn {A} (l : list A) : forall i j, skipn i (skipn j l) = skipn (i + j) l.
Proof.
  induction l as [|x t IH]; intros i j; [rewrite !skipn_nil; reflexivity|].
  destruct j as [|j]; simpl.
  - rewrite Nat.add_0_r. reflexivity.
  - rewrite IH. replace (i + S j) with (S (i + j)) by lia. reflexivity.
Qed.

Lemma map2_length {A B C} (f : A -> B -> C) l : forall m, length (map2 f l m) = Nat.min (length l) (length m).
Proof. induction l; intros [|b m]; simpl; auto. Qed.

Lemma upd_length {A} (l : list A) : forall i a, length (upd l i a) = length l.
Proof. induction l; intros [|i] a'; simpl; auto. Qed.

Lemma upd_same {A} (l : list A) : forall i a, i < length l -> nth_error (upd l i a) i = Some a.
Proof. induction l; intros [|i] a' H; simpl in *; try lia; auto. apply IHl. lia. Qed.

Lemma upd_other {A} (l : list A) : forall i j a, i <> j -> nth_error (upd l i a) j = nth_error l j.
Proof.
  induction l; intros [|i] [|j] a' H; simpl in *; try lia; auto.
Qed.

Lemma nth_error_ext {A} (l m : list A) : (forall i, nth_error l i = nth_error m i) -> l = m.
Proof.
  revert m. induction l as [|x t IH]; intros [|y u] H; [reflexivity|specialize (H 0); discriminate..|].
  f_equal; [specialize (H 0); simpl in H; congruence|].
  apply IH. intro i. apply (H (S i)).
Qed.

Lemma nth_error_rev {A} (l : list A) i : i < length l -> nth_error (rev l) i = nth_error l (length l - 1 - i).
Proof.
  revert i. induction l as [|x t IH]; intros i H; simpl in *; [lia|].
  destruct (Nat.eq_dec i (length t)) as [->|N].
  - rewrite nth_error_app2 by (rewrite rev_length; lia). rewrite rev_length, Nat.sub_diag.
    replace (length t - 0 - length t) with 0 by lia. reflexivity.
  - rewrite nth_error_app1 by (rewrite rev_length; lia). rewrite IH by lia.
    destruct (length t - 0 - i) as [|k] eqn:E; [lia|]. simpl. f_equal. lia.
Qed.

Lemma mapM_ok {A B} (f : A -> res B) (g : A -> B) l : (forall a, In a l -> f a = Ok (g a)) -> mapM f l = Ok (map g l).
Proof.
  induction l as [|a l IH]; intro H; [reflexivity|]. cbn [mapM map]. rewrite (H a) by (left; reflexivity).
  cbn [bind]. rewrite IH by (intros x Hx; apply H; right; exact Hx). reflexivity.
Qed.
