(** Sums, products and dot products over a field: definitions and lemmas.
    Library file. *)
From Coq Require Import List Arith Lia Bool Field Ring.
From Verif Require Import Base ListAux Field.
Import ListNotations.

Section Vec.
  Variable K : Fld.
  Local Open Scope fld_scope.
  Add Field Kv : (fth K).

  (** [iter().sum()], [iter().product()] (the order of a finite sum or product is
      immaterial in a field) *)
  Definition fsum (l : list K) : K := fold_right fadd 0 l.
  Definition fprod (l : list K) : K := fold_right fmul 1 l.
  Definition dot (a b : list K) : K := fsum (map2 fmul a b).
  Definition scale (c : K) (l : list K) : list K := map (fmul c) l.
  Definition vadd (a b : list K) : list K := map2 fadd a b.
  (** table of a function *)
  Definition tab {A} (n : nat) (f : nat -> A) : list A := map f (seq 0 n).
  Definition sumn (n : nat) (f : nat -> K) : K := fsum (tab n f).
  Fixpoint fpow (x : K) (k : nat) : K := match k with O => 1 | S k' => x * fpow x k' end.

  Lemma fsum_cons x l : fsum (x :: l) = x + fsum l.
  Proof. reflexivity. Qed.
  Lemma fprod_cons x l : fprod (x :: l) = x * fprod l.
  Proof. reflexivity. Qed.
  Lemma fsum_nil : fsum [] = 0.
  Proof. reflexivity. Qed.
  Lemma fprod_nil : fprod [] = 1.
  Proof. reflexivity. Qed.
  Lemma fsum_app a b : fsum (a ++ b) = fsum a + fsum b.
  Proof. induction a as [|x t IH]; cbn [app]; [rewrite fsum_nil; ring|]. rewrite !fsum_cons, IH. ring. Qed.
  Lemma fprod_app a b : fprod (a ++ b) = fprod a * fprod b.
  Proof. induction a as [|x t IH]; cbn [app]; [rewrite fprod_nil; ring|]. rewrite !fprod_cons, IH. ring. Qed.
  Lemma fsum_left l : forall a, fold_left fadd l a = a + fsum l.
  Proof. induction l as [|x t IH]; intro a; cbn [fold_left]; [rewrite fsum_nil; ring|]. rewrite IH, fsum_cons. ring. Qed.
  Lemma fprod_left l : forall a, fold_left fmul l a = a * fprod l.
  Proof. induction l as [|x t IH]; intro a; cbn [fold_left]; [rewrite fprod_nil; ring|]. rewrite IH, fprod_cons. ring. Qed.
  Lemma fsum_scale c l : fsum (map (fmul c) l) = c * fsum l.
  Proof. induction l as [|x t IH]; cbn [map]; [rewrite fsum_nil; ring|]. rewrite !fsum_cons, IH. ring. Qed.
  Lemma fsum_rev l : fsum (rev l) = fsum l.
  Proof. induction l as [|x t IH]; cbn [rev]; [reflexivity|]. rewrite fsum_app, IH, !fsum_cons, fsum_nil. ring. Qed.
  Lemma fprod_rev l : fprod (rev l) = fprod l.
  Proof. induction l as [|x t IH]; cbn [rev]; [reflexivity|]. rewrite fprod_app, IH, !fprod_cons, fprod_nil. ring. Qed.
  Lemma fsum_repeat0 k : fsum (repeat 0 k) = 0.
  Proof. induction k; cbn [repeat]; [reflexivity|]. rewrite fsum_cons, IHk. ring. Qed.

  Lemma dot_nil_l b : dot [] b = 0.
  Proof. reflexivity. Qed.
  Lemma dot_nil_r a : dot a [] = 0.
  Proof. destruct a; reflexivity. Qed.
  Lemma dot_cons x a y b : dot (x :: a) (y :: b) = x * y + dot a b.
  Proof. reflexivity. Qed.
  Lemma dot_comm a : forall b, dot a b = dot b a.
  Proof. induction a as [|x a IH]; intros [|y b]; try reflexivity. rewrite !dot_cons, IH. ring. Qed.
  Lemma map2_app {A B C} (f : A -> B -> C) a : forall b c d, length a = length c ->
    map2 f (a ++ b) (c ++ d) = map2 f a c ++ map2 f b d.
  Proof. induction a as [|x a IH]; intros b [|y c] d H; cbn in *; try discriminate; [reflexivity|]. rewrite IH; [reflexivity|congruence]. Qed.
  Lemma dot_app a b c d : length a = length c -> dot (a ++ b) (c ++ d) = dot a c + dot b d.
  Proof. intro H. unfold dot. rewrite map2_app by exact H. apply fsum_app. Qed.
  Lemma dot_scale_l c a : forall b, dot (map (fmul c) a) b = c * dot a b.
  Proof. induction a as [|x a IH]; intros [|y b]; cbn [map]; rewrite ?dot_nil_l, ?dot_nil_r; [ring..|]. rewrite !dot_cons, IH. ring. Qed.
  Lemma dot_scale_r c a b : dot a (map (fmul c) b) = c * dot a b.
  Proof. rewrite dot_comm, dot_scale_l, dot_comm. reflexivity. Qed.
  Lemma dot_vadd_l a : forall b c, length a = length b -> dot (vadd a b) c = dot a c + dot b c.
  Proof.
    induction a as [|x a IH]; intros [|y b] [|z c] H; cbn in H; try discriminate; unfold vadd in *;
      rewrite ?dot_nil_l, ?dot_nil_r; try ring.
    cbn [map2]. rewrite !dot_cons, IH by congruence. ring.
  Qed.
  Lemma dot_vadd_r a b c : length b = length c -> dot a (vadd b c) = dot a b + dot a c.
  Proof. intro H. rewrite dot_comm, dot_vadd_l by exact H. rewrite (dot_comm b), (dot_comm c). reflexivity. Qed.
  Lemma dot_repeat0_l k : forall b, dot (repeat 0 k) b = 0.
  Proof. induction k; intros [|y b]; cbn [repeat]; [reflexivity..|]. rewrite dot_cons, IHk. ring. Qed.
  Lemma dot_repeat0_r k a : dot a (repeat 0 k) = 0.
  Proof. rewrite dot_comm. apply dot_repeat0_l. Qed.
  (** a dot product ignores what one side has beyond the other *)
  Lemma dot_pad_l a k : forall b, dot (a ++ repeat 0 k) b = dot a b.
  Proof.
    induction a as [|x a IH]; intros [|y b]; cbn [app]; try reflexivity.
    - destruct k; reflexivity.
    - rewrite dot_repeat0_l. reflexivity.
    - rewrite !dot_cons, IH. reflexivity.
  Qed.

  (** tables *)
  Lemma tab_length {A} n (f : nat -> A) : length (tab n f) = n.
  Proof. unfold tab. rewrite map_length, seq_length. reflexivity. Qed.
  Lemma tab_S {A} n (f : nat -> A) : tab (S n) f = f 0%nat :: tab n (fun i => f (S i)).
  Proof. unfold tab. cbn [seq map]. f_equal. rewrite <- seq_shift, map_map. reflexivity. Qed.
  Lemma tab_Sr {A} n (f : nat -> A) : tab (S n) f = tab n f ++ [f n].
  Proof. unfold tab. rewrite seq_S, map_app. reflexivity. Qed.
  Lemma tab_add {A} n m (f : nat -> A) : tab (n + m) f = tab n f ++ tab m (fun i => f (n + i)%nat).
  Proof.
    unfold tab. rewrite seq_app, map_app. f_equal. cbn [Nat.add].
    rewrite <- (Nat.add_0_r n) at 1. generalize 0%nat as s. induction m; intro s; [reflexivity|].
    cbn [seq map]. f_equal. rewrite plus_n_Sm. apply IHm.
  Qed.
  Lemma tab_ext {A} n (f g : nat -> A) : (forall i, i < n -> f i = g i)%nat -> tab n f = tab n g.
  Proof. intro H. unfold tab. apply map_ext_in. intros i Hi. apply in_seq in Hi. apply H. lia. Qed.
  Lemma nth_tab {A} n (f : nat -> A) i d : (i < n)%nat -> nth i (tab n f) d = f i.
  Proof.
    intro H. unfold tab. rewrite (nth_indep _ d (f 0%nat)) by (rewrite map_length, seq_length; exact H).
    rewrite map_nth, seq_nth by exact H. reflexivity.
  Qed.
  Lemma tab_nth {A} (l : list A) d : tab (length l) (fun i => nth i l d) = l.
  Proof.
    induction l as [|x t IH]; [reflexivity|]. cbn [length]. rewrite tab_S. cbn [nth]. f_equal. exact IH.
  Qed.
  Lemma map_tab {A B} (g : A -> B) n f : map g (tab n f) = tab n (fun i => g (f i)).
  Proof. unfold tab. rewrite map_map. reflexivity. Qed.
  Lemma map2_tab {A B C} (g : A -> B -> C) n : forall f h, map2 g (tab n f) (tab n h) = tab n (fun i => g (f i) (h i)).
  Proof. induction n; intros f h; [reflexivity|]. rewrite !tab_S. cbn [map2]. f_equal. apply IHn. Qed.

  Lemma sumn_nil f : sumn 0 f = 0.
  Proof. reflexivity. Qed.
  Lemma sumn_ext n (f g : nat -> K) : (forall i, i < n -> f i = g i)%nat -> sumn n f = sumn n g.
  Proof. intro H. unfold sumn. rewrite (tab_ext n f g H). reflexivity. Qed.
  Lemma sumn_S n f : sumn (S n) f = f 0%nat + sumn n (fun i => f (S i)).
  Proof. unfold sumn. rewrite tab_S. reflexivity. Qed.
  Lemma sumn_Sr n f : sumn (S n) f = sumn n f + f n.
  Proof. unfold sumn. rewrite tab_Sr, fsum_app, fsum_cons, fsum_nil. ring. Qed.
  Lemma sumn_add n m f : sumn (n + m) f = sumn n f + sumn m (fun i => f (n + i)%nat).
  Proof. unfold sumn. rewrite tab_add. apply fsum_app. Qed.
  Lemma sumn_0 n : sumn n (fun _ => 0) = 0.
  Proof. induction n; [reflexivity|]. rewrite sumn_S, IHn. ring. Qed.
  Lemma sumn_zero n (f : nat -> K) : (forall i, (i < n)%nat -> f i = 0) -> sumn n f = 0.
  Proof. intro H. rewrite (sumn_ext n f (fun _ => 0) H). apply sumn_0. Qed.
  Lemma sumn_plus n : forall f g, sumn n (fun i => f i + g i) = sumn n f + sumn n g.
  Proof. induction n; intros f g; [rewrite !sumn_nil; ring|]. rewrite !sumn_S, IHn. ring. Qed.
  Lemma sumn_scale c n : forall f, sumn n (fun i => c * f i) = c * sumn n f.
  Proof. induction n; intro f; [rewrite !sumn_nil; ring|]. rewrite !sumn_S, IHn. ring. Qed.
  Lemma sumn_minus n : forall f g, sumn n (fun i => f i - g i) = sumn n f - sumn n g.
  Proof. induction n; intros f g; [rewrite !sumn_nil; ring|]. rewrite !sumn_S, IHn. ring. Qed.
  Lemma sumn_swap n m : forall f, sumn n (fun i => sumn m (f i)) = sumn m (fun j => sumn n (fun i => f i j)).
  Proof.
    induction n; intro f.
    - rewrite sumn_nil. symmetry. apply sumn_0.
    - rewrite sumn_S, IHn, <- sumn_plus. apply sumn_ext. intros j _. rewrite sumn_S. reflexivity.
  Qed.
  Lemma sumn_mul n m f : sumn (n * m) f = sumn n (fun i => sumn m (fun j => f (i * m + j)%nat)).
  Proof.
    revert f. induction n; intro f; [reflexivity|].
    cbn [Nat.mul]. rewrite sumn_add, sumn_S. f_equal. rewrite IHn. apply sumn_ext. intros i _.
    apply sumn_ext. intros j _. f_equal. lia.
  Qed.
  Lemma dot_tab n : forall f g, dot (tab n f) (tab n g) = sumn n (fun i => f i * g i).
  Proof. intros. unfold dot, sumn. rewrite map2_tab. reflexivity. Qed.
  Lemma dot_sumn a b n : length a = n -> length b = n -> dot a b = sumn n (fun i => nth i a 0 * nth i b 0).
  Proof.
    intros <- H. rewrite <- (tab_nth a 0) at 1. rewrite <- (tab_nth b 0) at 1. rewrite H. apply dot_tab.
  Qed.
  Lemma fsum_sumn l : fsum l = sumn (length l) (fun i => nth i l 0).
  Proof. unfold sumn. rewrite tab_nth. reflexivity. Qed.
  Lemma sumn_single n k f : (k < n)%nat -> (forall i, (i < n)%nat -> i <> k -> f i = 0) -> sumn n f = f k.
  Proof.
    revert k f. induction n; intros k f Hk H; [lia|]. rewrite sumn_S. destruct k as [|k].
    - rewrite sumn_zero; [ring|]. intros i Hi. apply H; lia.
    - rewrite (H 0%nat) by lia. rewrite (IHn k (fun i => f (S i))); [ring|lia|]. intros i Hi Hn. apply H; lia.
  Qed.

  Lemma map2_nth {A B C} (f : A -> B -> C) a : forall b i da db dc, (i < length a)%nat -> (i < length b)%nat ->
    nth i (map2 f a b) dc = f (nth i a da) (nth i b db).
  Proof.
    induction a as [|x a IH]; intros [|y b] i da db dc H1 H2; cbn in *; try lia.
    destruct i as [|i]; [reflexivity|]. apply IH; lia.
  Qed.
  Lemma nth_map0 {A B} (f : A -> B) l i da db : (i < length l)%nat -> nth i (map f l) db = f (nth i l da).
  Proof. intro H. rewrite (nth_indep _ db (f da)) by (rewrite map_length; exact H). apply map_nth. Qed.
  Lemma list_ext {A} (a b : list A) d : length a = length b -> (forall i, i < length a -> nth i a d = nth i b d)%nat -> a = b.
  Proof. intros H1 H2. apply (nth_ext a b d d); assumption. Qed.
  Lemma firstn_nth {A} n : forall (l : list A) i d, (i < n)%nat -> nth i (firstn n l) d = nth i l d.
  Proof. induction n; intros [|x l] [|i] d H; cbn; try lia; auto. apply IHn. lia. Qed.
  Lemma skipn_nth {A} n : forall (l : list A) i d, nth i (skipn n l) d = nth (n + i) l d.
  Proof. induction n; intros [|x l] i d; cbn; auto. destruct i; reflexivity. Qed.
  Lemma firstn_tab {A} n m (f : nat -> A) : (n <= m)%nat -> firstn n (tab m f) = tab n f.
  Proof.
    intro H. replace m with (n + (m - n))%nat by lia. rewrite tab_add, firstn_app, tab_length, Nat.sub_diag.
    cbn [firstn]. rewrite app_nil_r. apply firstn_all2. rewrite tab_length. lia.
  Qed.
  Lemma skipn_tab {A} n m (f : nat -> A) : (n <= m)%nat -> skipn n (tab m f) = tab (m - n) (fun i => f (n + i)%nat).
  Proof.
    intro H. replace m with (n + (m - n))%nat at 1 by lia. rewrite tab_add, skipn_app, tab_length, Nat.sub_diag.
    rewrite skipn_all2 by (rewrite tab_length; lia). reflexivity.
  Qed.
End Vec.
Arguments fsum {K} l.
Arguments fprod {K} l.
Arguments dot {K} a b.
Arguments scale {K} c l.
Arguments vadd {K} a b.
Arguments sumn {K} n f.
Arguments fpow {K} x k.
