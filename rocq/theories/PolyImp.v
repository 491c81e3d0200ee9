(** The in-place loops of dense_mlpoly.rs against their mathematical meaning. *)
From Coq Require Import List Arith Lia Bool Field Ring.
From Verif Require Import Base ListAux Field Vec MathModel PolyModel PolySpec PolyProofs.
Import ListNotations.

Lemma upd_split {A} (l : list A) : forall i x, (i < length l)%nat -> upd l i x = firstn i l ++ x :: skipn (S i) l.
Proof.
  induction l as [|y l IH]; intros [|i] x H; cbn in H; try lia; [reflexivity|].
  cbn [upd]. rewrite IH by lia. reflexivity.
Qed.
Lemma idx_nth {A} (l : list A) i d : (i < length l)%nat -> idx l i = Ok (nth i l d).
Proof. intro H. unfold idx. rewrite (nth_error_nth' l d H). reflexivity. Qed.
Lemma nth_upd_same {A} (l : list A) i x d : (i < length l)%nat -> nth i (upd l i x) d = x.
Proof. intro H. apply nth_error_nth. apply upd_same, H. Qed.
Lemma nth_upd_other {A} (l : list A) i j x d : i <> j -> nth j (upd l i x) d = nth j l d.
Proof.
  intro H. pose proof (upd_other l i j x H) as E.
  destruct (nth_error l j) eqn:F.
  - rewrite (nth_error_nth _ _ d F). apply nth_error_nth. exact E.
  - apply nth_error_None in F, E. rewrite !nth_overflow by lia. reflexivity.
Qed.

Section Imp.
  Variable K : Fld.
  Local Open Scope fld_scope.
  Add Field Ki : (fth K).

  Lemma inner_spec r n : forall A B : list K, length A = n -> (n <= length B)%nat ->
    fold_left (evals_inner K r) (map (fun m => 2 * m + 1)%nat (rev (seq 0 n))) (Ok (A ++ B)) =
    Ok (eq_double A r ++ skipn n B).
  Proof.
    induction n as [|n IH]; intros A B HA HB.
    - destruct A; [reflexivity|discriminate].
    - destruct (exists_last (l := A)) as (A' & a & ->); [intros ->; discriminate|].
      rewrite app_length in HA. cbn [length] in HA. assert (HA' : length A' = n) by lia.
      rewrite seq_S, rev_app_distr. cbn [rev app map fold_left Nat.add].
      set (T := (A' ++ [a]) ++ B). assert (HT : length T = (S n + length B)%nat) by (unfold T; rewrite !app_length; cbn [length]; lia).
      assert (E1 : evals_inner K r (Ok T) (2 * n + 1) =
        Ok (A' ++ (firstn n (a :: B) ++ [a - a * r; a * r] ++ skipn (S n) B))).
      { unfold evals_inner. cbn [bind].
        replace ((2 * n + 1) / 2)%nat with n by (rewrite Nat.mul_comm, Nat.div_add_l by lia; change (1 / 2)%nat with 0%nat; lia).
        rewrite (idx_nth T n 0) by lia. cbn [bind].
        replace (nth n T 0) with a.
        2: { unfold T. rewrite <- app_assoc, app_nth2, HA', Nat.sub_diag by lia. reflexivity. }
        replace (Nat.ltb (2 * n + 1) (length T)) with true by (symmetry; apply Nat.ltb_lt; lia).
        replace (Nat.leb 1 (2 * n + 1)) with true by (symmetry; apply Nat.leb_le; lia). cbn [andb].
        rewrite (idx_nth _ _ 0) by (rewrite upd_length; lia). cbn [bind].
        rewrite nth_upd_same by lia. f_equal.
        replace (2 * n + 1 - 1)%nat with (2 * n)%nat by lia.
        rewrite upd_split by (rewrite upd_length; lia). rewrite upd_split by lia.
        assert (EF : firstn (2 * n) (firstn (2 * n + 1) T ++ a * r :: skipn (S (2 * n + 1)) T) = A' ++ firstn n (a :: B)).
        { rewrite firstn_app, firstn_firstn, firstn_length, Nat.min_l by lia.
          replace (2 * n - Nat.min (2 * n + 1) (length T))%nat with 0%nat by lia. cbn [firstn]. rewrite app_nil_r.
          unfold T. rewrite <- app_assoc, firstn_app, HA'. rewrite firstn_all2 by lia.
          replace (2 * n - n)%nat with n by lia. reflexivity. }
        assert (ES : skipn (S (2 * n)) (firstn (2 * n + 1) T ++ a * r :: skipn (S (2 * n + 1)) T) = a * r :: skipn (S n) B).
        { rewrite skipn_app, firstn_length. rewrite skipn_all2 by (rewrite firstn_length; lia).
          replace (S (2 * n) - Nat.min (2 * n + 1) (length T))%nat with 0%nat by lia. rewrite skipn_O; cbn [app]. f_equal.
          unfold T. rewrite <- app_assoc. rewrite (skipn_app (S (2 * n + 1)) A'), HA'. rewrite skipn_all2 by lia.
          replace (S (2 * n + 1) - n)%nat with (S (S n)) by lia. reflexivity. }
        rewrite EF, ES, <- app_assoc. reflexivity. }
      rewrite E1, IH; [|exact HA'|].
      + f_equal. rewrite eq_double_app, <- app_assoc. f_equal.
        rewrite skipn_app, firstn_length. cbn [length]. rewrite Nat.min_l by lia. rewrite Nat.sub_diag.
        rewrite skipn_all2 by (rewrite firstn_length; cbn [length]; lia). cbn [skipn app].
        unfold eq_double. cbn [flat_map app]. reflexivity.
      + rewrite !app_length, firstn_length, skipn_length. cbn [length]. lia.
  Qed.
  Lemma evals_indices_eq n : evals_indices (n * 2) = map (fun m => 2 * m + 1)%nat (rev (seq 0 n)).
  Proof.
    unfold evals_indices. rewrite Nat.div_mul by lia.
    induction n as [|n IH]; [reflexivity|].
    rewrite seq_S at 2. rewrite rev_app_distr. cbn [rev app map Nat.add]. cbn [seq map].
    f_equal; [lia|]. rewrite <- IH, <- seq_shift, map_map. apply map_ext. intro k. lia.
  Qed.
  Lemma outer_spec r2 : forall r1 B, length B = (2 ^ (length r1 + length r2) - 2 ^ length r1)%nat ->
    fold_left (evals_outer K) r2 (Ok (eq_evals r1 ++ B), (2 ^ length r1)%nat) =
    (Ok (eq_evals (r1 ++ r2)), (2 ^ (length r1 + length r2))%nat).
  Proof.
    induction r2 as [|x r2 IH]; intros r1 B HB.
    - cbn [length] in *. rewrite Nat.add_0_r, Nat.sub_diag in HB. destruct B; [|discriminate].
      cbn [fold_left]. rewrite !app_nil_r, Nat.add_0_r. reflexivity.
    - cbn [fold_left length] in *. unfold evals_outer at 2. cbn [fst snd]. rewrite evals_indices_eq.
      assert (Hp : (2 ^ (length r1 + S (length r2)) = 2 * 2 ^ (length r1 + length r2))%nat).
      { rewrite Nat.add_succ_r. cbn [Nat.pow]. lia. }
      assert (Hm : (2 ^ length r1 <= 2 ^ (length r1 + length r2))%nat) by (apply Nat.pow_le_mono_r; lia).
      rewrite inner_spec; [|apply eq_evals_length|lia].
      specialize (IH (r1 ++ [x]) (skipn (2 ^ length r1) B)).
      rewrite <- eq_evals_snoc.
      rewrite app_length in IH. cbn [length] in IH. rewrite Nat.add_1_r in IH. cbn [Nat.pow Nat.add] in IH.
      replace (2 ^ length r1 * 2)%nat with (2 * 2 ^ length r1)%nat by lia. rewrite IH.
      + rewrite <- app_assoc. cbn [app]. f_equal. rewrite Hp. cbn [Nat.pow Nat.add]. lia.
      + rewrite skipn_length, HB. rewrite Hp. lia.
  Qed.
  Lemma eq_evals_imp_ok (r : list K) : eq_evals_imp r = Ok (eq_evals r).
  Proof.
    unfold eq_evals_imp, pow2. pose proof (pow2_pos (length r)) as Hp.
    replace (repeat 1 (2 ^ length r)) with (eq_evals [] ++ repeat (1 : K) (2 ^ length r - 1)).
    - pose proof (outer_spec r [] (repeat 1 (2 ^ length r - 1))) as E. rewrite repeat_length in E. specialize (E eq_refl).
      change (2 ^ length (@nil K))%nat with 1%nat in E. rewrite E. reflexivity.
    - rewrite eq_evals_nil. replace (2 ^ length r)%nat with (S (2 ^ length r - 1)) at 2 by lia. reflexivity.
  Qed.

  (** ** Binding variables *)
  Lemma bind_top_fold r n : forall k Z, (k <= n)%nat -> (2 * n <= length Z)%nat ->
    exists Z', fold_left (bind_top_step n r) (seq 0 k) (Ok Z) = Ok Z' /\ length Z' = length Z /\
      (forall i, (i < k)%nat -> nth i Z' 0 = nth i Z 0 + r * (nth (i + n) Z 0 - nth i Z 0)) /\
      (forall i, (k <= i)%nat -> nth i Z' 0 = nth i Z (0 : K)).
  Proof.
    induction k as [|k IH]; intros Z Hk HZ.
    - exists Z. repeat split; auto. intros; lia.
    - destruct (IH Z ltac:(lia) HZ) as (Z' & E & HL & H1 & H2).
      rewrite seq_S, fold_left_app, E. cbn [Nat.add fold_left]. unfold bind_top_step. cbn [bind].
      rewrite (idx_nth Z' k 0), (idx_nth Z' (k + n) 0) by lia. cbn [bind].
      eexists. split; [reflexivity|]. rewrite upd_length. split; [exact HL|]. split.
      + intros i Hi. destruct (Nat.eq_dec i k) as [->|N].
        * rewrite nth_upd_same by lia. rewrite !H2 by lia. reflexivity.
        * rewrite nth_upd_other by lia. apply H1. lia.
      + intros i Hi. rewrite nth_upd_other by lia. apply H2. lia.
  Qed.
  Lemma bind_bot_fold r n : forall k Z, (k <= n)%nat -> (2 * n <= length Z)%nat ->
    exists Z', fold_left (bind_bot_step r) (seq 0 k) (Ok Z) = Ok Z' /\ length Z' = length Z /\
      (forall i, (i < k)%nat -> nth i Z' 0 = nth (2 * i) Z 0 + r * (nth (2 * i + 1) Z 0 - nth (2 * i) Z 0)) /\
      (forall i, (k <= i)%nat -> nth i Z' 0 = nth i Z (0 : K)).
  Proof.
    induction k as [|k IH]; intros Z Hk HZ.
    - exists Z. repeat split; auto. intros; lia.
    - destruct (IH Z ltac:(lia) HZ) as (Z' & E & HL & H1 & H2).
      rewrite seq_S, fold_left_app, E. cbn [Nat.add fold_left]. unfold bind_bot_step. cbn [bind].
      rewrite (idx_nth Z' (2 * k) 0), (idx_nth Z' (2 * k + 1) 0) by lia. cbn [bind].
      replace (Nat.ltb k (length Z')) with true by (symmetry; apply Nat.ltb_lt; lia).
      eexists. split; [reflexivity|]. rewrite upd_length. split; [exact HL|]. split.
      + intros i Hi. destruct (Nat.eq_dec i k) as [->|N].
        * rewrite nth_upd_same by lia. rewrite !H2 by lia. reflexivity.
        * rewrite nth_upd_other by lia. apply H1. lia.
      + intros i Hi. rewrite nth_upd_other by lia. apply H2. lia.
  Qed.
  Definition bind_top_list (r : K) (Z : list K) : list K :=
    tab (length Z / 2) (fun i => nth i Z 0 + r * (nth (i + length Z / 2) Z 0 - nth i Z 0)).
  Lemma live_length (d : dense K) : dense_ok d -> length (live d) = dlen d.
  Proof. intros [_ H]. unfold live. rewrite firstn_length. lia. Qed.
  Lemma live_nth (d : dense K) i : (i < dlen d)%nat -> nth i (live d) 0 = nth i (dZ d) 0.
  Proof. intro H. unfold live. apply firstn_nth, H. Qed.
  Lemma pow_half k : (2 ^ S k / 2 = 2 ^ k)%nat.
  Proof. cbn [Nat.pow]. rewrite Nat.mul_comm. apply Nat.div_mul. lia. Qed.

  Lemma bind_top_ok (d : dense K) r k : dense_ok d -> dnum_vars d = S k ->
    exists d', bound_poly_var_top d r = Ok d' /\ dense_ok d' /\ dnum_vars d' = k /\
      live d' = tab (2 ^ k) (fun i => nth i (live d) 0 + r * (nth (i + 2 ^ k) (live d) 0 - nth i (live d) 0)) /\
      length (dZ d') = length (dZ d).
  Proof.
    intros [H1 H2] Hk. unfold bound_poly_var_top. rewrite H1, Hk, pow_half. rewrite Hk in H1.
    pose proof (pow2_S k) as Hp.
    destruct (bind_top_fold r (2 ^ k) (2 ^ k) (dZ d) (le_n _) ltac:(lia)) as (Z' & E & HL & HB & _).
    rewrite E. cbn [bind Nat.leb]. eexists. split; [reflexivity|]. cbn [dnum_vars dlen dZ].
    replace (S k - 1)%nat with k by lia. split; [|split; [reflexivity|split]].
    - split; cbn [dlen dZ dnum_vars]; lia.
    - unfold live at 1. cbn [dlen dZ]. apply (list_ext _ _ 0).
      + rewrite firstn_length, tab_length. lia.
      + intros i Hi. rewrite firstn_length in Hi. rewrite firstn_nth, nth_tab, HB by lia.
        rewrite !live_nth by lia. reflexivity.
    - exact HL.
  Qed.
  Lemma bind_bot_ok (d : dense K) r k : dense_ok d -> dnum_vars d = S k ->
    exists d', bound_poly_var_bot d r = Ok d' /\ dense_ok d' /\ dnum_vars d' = k /\
      live d' = tab (2 ^ k) (fun i => nth (2 * i) (live d) 0 + r * (nth (2 * i + 1) (live d) 0 - nth (2 * i) (live d) 0)).
  Proof.
    intros [H1 H2] Hk. unfold bound_poly_var_bot. rewrite H1, Hk, pow_half. rewrite Hk in H1.
    pose proof (pow2_S k) as Hp.
    destruct (bind_bot_fold r (2 ^ k) (2 ^ k) (dZ d) (le_n _) ltac:(lia)) as (Z' & E & HL & HB & _).
    rewrite E. cbn [bind Nat.leb]. eexists. split; [reflexivity|]. cbn [dnum_vars dlen dZ].
    replace (S k - 1)%nat with k by lia. split; [|split; [reflexivity|]].
    - split; cbn [dlen dZ dnum_vars]; lia.
    - unfold live at 1. cbn [dlen dZ]. apply (list_ext _ _ 0).
      + rewrite firstn_length, tab_length. lia.
      + intros i Hi. rewrite firstn_length in Hi. rewrite firstn_nth, nth_tab, HB by lia.
        rewrite !live_nth by lia. reflexivity.
  Qed.
  Lemma mle_bind_top (Z : list K) r rs : 
    mle (tab (2 ^ length rs) (fun i => nth i Z 0 + r * (nth (i + 2 ^ length rs) Z 0 - nth i Z 0))) rs = mle Z (r :: rs).
  Proof.
    rewrite mle_cons. rewrite <- mle_lin. apply mle_ext. intros i Hi. rewrite !nth_tab, skipn_nth by exact Hi.
    replace (i + 2 ^ length rs)%nat with (2 ^ length rs + i)%nat by lia. ring.
  Qed.

  Lemma bind_top_mle (d : dense K) r rs : dense_ok d -> dnum_vars d = S (length rs) ->
    exists d', bound_poly_var_top d r = Ok d' /\ dense_ok d' /\ dnum_vars d' = length rs /\
      mle (live d') rs = mle (live d) (r :: rs).
  Proof.
    intros H Hn. destruct (bind_top_ok d r _ H Hn) as (d' & E & H' & Hn' & EL & _).
    exists d'. repeat split; try assumption; try apply H'. rewrite EL. apply mle_bind_top.
  Qed.
  Lemma bind_bot_mle (d : dense K) r rs : dense_ok d -> dnum_vars d = S (length rs) ->
    exists d', bound_poly_var_bot d r = Ok d' /\ dense_ok d' /\ dnum_vars d' = length rs /\
      mle (live d') rs = mle (live d) (rs ++ [r]).
  Proof.
    intros H Hn. destruct (bind_bot_ok d r _ H Hn) as (d' & E & H' & Hn' & EL).
    exists d'. repeat split; try assumption; try apply H'. rewrite EL. symmetry. apply mle_snoc.
  Qed.
  (** binding every variable in turn *)
  Definition bind_all (d : res (dense K)) (rs : list K) : res (dense K) :=
    fold_left (fun d r => do d <- d; bound_poly_var_top d r) rs d.
  Lemma bind_all_ok rs : forall d, dense_ok d -> dnum_vars d = length rs ->
    exists d', bind_all (Ok d) rs = Ok d' /\ dense_index d' 0 = Ok (mle (live d) rs).
  Proof.
    induction rs as [|r rs IH]; intros d H Hn.
    - exists d. split; [reflexivity|]. destruct H as [H1 H2]. rewrite Hn in H1. cbn in H1.
      unfold dense_index. rewrite (idx_nth _ _ 0) by lia. rewrite mle_nil, live_nth by lia. reflexivity.
    - destruct (bind_top_mle d r rs H Hn) as (d1 & E1 & H1 & Hn1 & EM).
      destruct (IH d1 H1 Hn1) as (d' & E' & EV). exists d'. cbn [bind_all fold_left bind]. rewrite E1.
      split; [exact E'|]. rewrite EV, EM. reflexivity.
  Qed.

  Lemma dense_new_ok (Z : list K) k : length Z = (2 ^ k)%nat ->
    dense_new Z = Ok (MkDense k (2 ^ k)%nat Z) /\ dense_ok (MkDense k (2 ^ k)%nat Z) /\ live (MkDense k (2 ^ k)%nat Z) = Z.
  Proof.
    intro H. unfold dense_new. rewrite H, log_2_pow. cbn [bind]. split; [reflexivity|].
    split; [split; cbn [dlen dZ dnum_vars]; lia|]. unfold live. cbn [dlen dZ]. apply firstn_all2. lia.
  Qed.
  Lemma evaluate_ok (Z r : list K) : length Z = (2 ^ length r)%nat ->
    (do d <- dense_new Z; dense_evaluate d r) = Ok (mle Z r).
  Proof.
    intro H. destruct (dense_new_ok Z _ H) as (-> & _ & _). cbn [bind]. unfold dense_evaluate. cbn [dnum_vars dZ].
    rewrite Nat.eqb_refl, eq_evals_length, H, Nat.eqb_refl. unfold compute_dotproduct.
    rewrite eq_evals_length, H, Nat.eqb_refl. rewrite mle_dot by exact H. reflexivity.
  Qed.

  (** ** Merging *)
  Lemma repeat_concat (x : K) a b : repeat x (a * b) = concat (repeat (repeat x b) a).
  Proof. induction a as [|a IH]; [reflexivity|]. cbn [repeat concat Nat.mul]. rewrite repeat_app, IH. reflexivity. Qed.
  Lemma map_repeat0 {A B} (f : A -> B) x n : map f (repeat x n) = repeat (f x) n.
  Proof. induction n; cbn; [|rewrite IHn]; reflexivity. Qed.
  Lemma concat_length_const (rows : list (list K)) n : (forall row, In row rows -> length row = n) ->
    length (concat rows) = (length rows * n)%nat.
  Proof.
    induction rows as [|row rows IH]; intro H; [reflexivity|]. cbn [concat length Nat.mul].
    rewrite app_length, IH, (H row); [reflexivity|left; reflexivity|]. intros x Hx. apply H. right. exact Hx.
  Qed.
  Lemma merge_ok (polys : list (dense K)) m : polys <> [] ->
    (forall d, In d polys -> length (dZ d) = (2 ^ m)%nat) ->
    exists d, dense_merge polys = Ok d /\ dense_ok d /\
      dnum_vars d = (Nat.log2_up (length polys) + m)%nat /\
      dZ d = pad_pow2 (concat (map dZ polys)) /\ live d = dZ d.
  Proof.
    intros Hne H. unfold dense_merge.
    assert (HL : length (concat (map dZ polys)) = (length polys * 2 ^ m)%nat).
    { rewrite (concat_length_const _ (2 ^ m)), map_length; [reflexivity|].
      intros row Hr. apply in_map_iff in Hr. destruct Hr as (d & <- & Hd). apply H, Hd. }
    assert (Hp : (0 < length polys)%nat) by (destruct polys; [congruence|cbn; lia]).
    assert (HP : length (pad_pow2 (concat (map dZ polys))) = (2 ^ (Nat.log2_up (length polys) + m))%nat).
    { unfold pad_pow2. rewrite app_length, repeat_length. pose proof (next_pow2_ge (length (concat (map dZ polys)))).
      rewrite Nat.add_comm, Nat.sub_add by assumption. rewrite HL, next_pow2_mul by exact Hp.
      unfold next_pow2. rewrite Nat.pow_add_r. reflexivity. }
    destruct (dense_new_ok _ _ HP) as (E & Hok & HLv). unfold pad_pow2 in E. rewrite E.
    eexists. split; [reflexivity|]. split; [exact Hok|]. split; [reflexivity|]. split; [reflexivity|exact HLv].
  Qed.
  Lemma merge_mle (polys : list (list K)) (c r : list K) : polys <> [] -> length c = Nat.log2_up (length polys) ->
    (forall P, In P polys -> length P = (2 ^ length r)%nat) ->
    mle (pad_pow2 (concat polys)) (c ++ r) = mle (pad_pow2 (map (fun P => mle P r) polys)) c.
  Proof.
    intros Hne Hc H. assert (Hp : (0 < length polys)%nat) by (destruct polys; [congruence|cbn; lia]).
    unfold pad_pow2. rewrite (concat_length_const _ _ H), map_length, next_pow2_mul by exact Hp.
    rewrite <- Nat.mul_sub_distr_r, repeat_concat, <- concat_app.
    rewrite mle_concat.
    - rewrite map_app. f_equal. f_equal. rewrite map_repeat0, mle_zero. reflexivity.
    - rewrite app_length, repeat_length, Hc. pose proof (next_pow2_ge (length polys)). unfold next_pow2 in *. lia.
    - intros row Hr. apply in_app_or in Hr. destruct Hr as [Hr|Hr]; [apply H, Hr|].
      apply repeat_spec in Hr. subst row. apply repeat_length.
  Qed.
  Lemma extend_ok (a b : list K) k : length a = (2 ^ k)%nat -> length b = (2 ^ k)%nat ->
    dense_extend (MkDense k (2 ^ k)%nat a) (MkDense k (2 ^ k)%nat b) = Ok (MkDense (S k) (2 ^ S k)%nat (a ++ b)).
  Proof.
    intros Ha Hb. unfold dense_extend. cbn [dZ dlen dnum_vars]. rewrite app_length, Ha, Hb, Nat.eqb_refl.
    replace (2 ^ k + 2 ^ k)%nat with (2 ^ k * 2)%nat by lia. rewrite Nat.eqb_refl.
    rewrite Nat.add_1_r. f_equal. f_equal. cbn [Nat.pow]. lia.
  Qed.
  Lemma split_ok (a b : list K) k : length a = (2 ^ k)%nat -> length b = (2 ^ k)%nat ->
    dense_split (MkDense (S k) (2 ^ S k)%nat (a ++ b)) (2 ^ k) =
    Ok (MkDense k (2 ^ k)%nat a, MkDense k (2 ^ k)%nat b).
  Proof.
    intros Ha Hb. unfold dense_split. cbn [dZ dlen dnum_vars]. rewrite app_length, Ha, Hb.
    pose proof (pow2_pos k). pose proof (pow2_S k).
    replace (Nat.ltb (2 ^ k) (2 ^ S k)) with true by (symmetry; apply Nat.ltb_lt; lia).
    replace (Nat.leb (2 * 2 ^ k) (2 ^ k + 2 ^ k)) with true by (symmetry; apply Nat.leb_le; lia).
    rewrite firstn_app, Ha, Nat.sub_diag. cbn [firstn]. rewrite app_nil_r, firstn_all2 by lia.
    rewrite skipn_app, Ha, Nat.sub_diag. cbn [skipn]. rewrite skipn_all2 by lia. cbn [app].
    rewrite firstn_all2 by lia.
    destruct (dense_new_ok a k Ha) as (-> & _). destruct (dense_new_ok b k Hb) as (-> & _). reflexivity.
  Qed.

  (** ** Factored evaluation *)
  Lemma factored_ok (r : list K) :
    let '(L, R) := compute_factored_evals r in
    length L = (2 ^ (length r / 2))%nat /\ length R = (2 ^ (length r - length r / 2))%nat /\
    eq_evals r = flat_map (fun l => map (fmul l) R) L.
  Proof.
    unfold compute_factored_evals, compute_factored_lens. cbn [fst].
    set (m := (length r / 2)%nat).
    assert (Hm : (m <= length r)%nat) by (apply Nat.div_le_upper_bound; lia).
    split; [rewrite eq_evals_length, firstn_length; f_equal; lia|].
    split; [rewrite eq_evals_length, skipn_length; reflexivity|].
    rewrite <- (firstn_skipn m r) at 1. generalize (firstn m r) (skipn m r). clear.
    intros a b. unfold eq_evals at 1. rewrite fold_left_app. fold (eq_evals a).
    induction (eq_evals a) as [|x t IH]; [cbn [flat_map]; clear|].
    - induction b as [|y b IH]; [reflexivity|]. cbn [fold_left]. exact IH.
    - change (x :: t) with ([x] ++ t). rewrite eq_fold_app, IH. cbn [app flat_map]. f_equal.
      replace [x] with (map (fmul x) [1 : K]) by (cbn [map]; f_equal; ring). rewrite eq_fold_scale. reflexivity.
  Qed.
  Lemma flat_map_nth (L R : list K) i j : (i < length L)%nat -> (j < length R)%nat ->
    nth (i * length R + j) (flat_map (fun l => map (fmul l) R) L) 0 = nth i L 0 * nth j R 0.
  Proof.
    revert i. induction L as [|l L IH]; intros i Hi Hj; cbn in Hi; [lia|]. cbn [flat_map]. destruct i as [|i].
    - cbn [Nat.mul Nat.add nth]. rewrite app_nth1 by (rewrite map_length; lia). rewrite (nth_map0 _ _ _ 0) by lia. reflexivity.
    - rewrite app_nth2 by (rewrite map_length; cbn [Nat.mul]; lia). rewrite map_length.
      replace (S i * length R + j - length R)%nat with (i * length R + j)%nat by (cbn [Nat.mul]; lia).
      cbn [nth]. apply IH; lia.
  Qed.
  (** [bound] with the left table, then a dot product with the right table, is the evaluation *)
  Lemma bound_dot (Z r : list K) : length Z = (2 ^ length r)%nat ->
    exists LZ, dense_bound (MkDense (length r) (2 ^ length r)%nat Z) (fst (compute_factored_evals r)) = Ok LZ /\
      length LZ = (2 ^ (length r - length r / 2))%nat /\
      dot LZ (snd (compute_factored_evals r)) = mle Z r /\
      forall i, (i < 2 ^ (length r - length r / 2))%nat -> nth i LZ 0 =
        sumn (2 ^ (length r / 2)) (fun j => nth j (fst (compute_factored_evals r)) 0 * nth (j * 2 ^ (length r - length r / 2) + i) Z 0).
  Proof.
    intro H. pose proof (factored_ok r) as F. destruct (compute_factored_evals r) as [L R] eqn:E. cbn [fst snd].
    destruct F as (HL & HR & HE). set (m := (length r / 2)%nat) in *.
    assert (Hm : (m <= length r)%nat) by (apply Nat.div_le_upper_bound; lia).
    assert (Hp : (2 ^ m * 2 ^ (length r - m) = 2 ^ length r)%nat) by (rewrite <- Nat.pow_add_r; f_equal; lia).
    unfold dense_bound, compute_factored_lens. cbn [dnum_vars dZ]. fold m. unfold pow2.
    rewrite HL, H, Hp, !Nat.leb_refl. eexists. split; [reflexivity|].
    rewrite map_length, seq_length. split; [reflexivity|]. 
    assert (HN : forall i, (i < 2 ^ (length r - m))%nat ->
      nth i (map (fun i => fsum (map (fun j => nth j L 0 * nth (j * 2 ^ (length r - m) + i) Z 0) (seq 0 (2 ^ m)))) (seq 0 (2 ^ (length r - m)))) 0
      = sumn (2 ^ m) (fun j => nth j L 0 * nth (j * 2 ^ (length r - m) + i) Z 0)).
    { intros i Hi. exact (nth_tab _ _ i 0 Hi). }
    split; [|exact HN].
    rewrite (dot_sumn K _ _ (2 ^ (length r - m))) by (rewrite ?map_length, ?seq_length; auto).
    unfold mle. rewrite <- Hp, sumn_mul.
    rewrite (sumn_ext K _ _ (fun i => sumn (2 ^ m) (fun j => nth j L 0 * nth (j * 2 ^ (length r - m) + i) Z 0 * nth i R 0))).
    - rewrite sumn_swap. apply sumn_ext. intros j Hj. apply sumn_ext. intros i Hi.
      rewrite <- (eq_evals_nth K r).
      + rewrite HE, <- HR, flat_map_nth by lia. ring.
      + rewrite <- Hp. nia.
    - intros i Hi. rewrite HN by exact Hi. 
      rewrite (sumn_ext K _ (fun j => nth j L 0 * nth (j * 2 ^ (length r - m) + i) Z 0 * nth i R 0)
        (fun j => nth i R 0 * (nth j L 0 * nth (j * 2 ^ (length r - m) + i) Z 0))) by (intros; ring).
      rewrite sumn_scale. ring.
  Qed.

  (** ** Evaluation of the equality polynomial, and the identity polynomial *)
  Lemma eq_evaluate_ok (r rx : list K) : length r = length rx ->
    eq_evaluate r rx = Ok (fprod (map2 (fun a b => a * b + (1 - a) * (1 - b)) r rx)).
  Proof. intro H. unfold eq_evaluate. rewrite H, Nat.eqb_refl. reflexivity. Qed.
  (** evaluating at a point is taking the multilinear extension of the table *)
  Lemma eq_mle (r : list K) : forall rx, length r = length rx ->
    mle (eq_evals r) rx = fprod (map2 (fun a b => a * b + (1 - a) * (1 - b)) r rx).
  Proof.
    induction r as [|x r IH]; intros [|y rx] H; try discriminate.
    - rewrite mle_nil. reflexivity.
    - cbn [map2]. rewrite fprod_cons, <- IH by (cbn in H; lia).
      rewrite eq_evals_cons, mle_app by (rewrite map_length, eq_evals_length; cbn in H; f_equal; lia).
      assert (S1 : forall c, mle (map (fmul c) (eq_evals r)) rx = c * mle (eq_evals r) rx).
      { intro c. unfold mle. rewrite <- sumn_scale. apply sumn_ext. intros i Hi.
        rewrite (nth_map0 _ _ _ 0) by (rewrite eq_evals_length; cbn in H; replace (length r) with (length rx) by lia; exact Hi). ring. }
      rewrite !S1. ring.
  Qed.
  Lemma of_nat_add a b : of_nat (a + b) = of_nat a + (of_nat b : K).
  Proof. induction a as [|a IH]; cbn [of_nat Nat.add]; [ring|]. rewrite IH. ring. Qed.
  Lemma chi_sum (r : list K) : sumn (2 ^ length r) (chi r) = 1.
  Proof.
    replace (sumn (2 ^ length r) (chi r)) with (fsum (eq_evals r)) by (rewrite eq_evals_tab; reflexivity).
    induction r as [|x r IH]; [rewrite eq_evals_nil, fsum_cons, fsum_nil; ring|].
    rewrite eq_evals_cons, fsum_app, !fsum_scale, IH. ring.
  Qed.
  Lemma mle_const c (r : list K) : mle (tab (2 ^ length r) (fun _ => c)) r = c.
  Proof.
    unfold mle. rewrite (sumn_ext K _ _ (fun i => c * chi r i)).
    - rewrite sumn_scale, chi_sum. ring.
    - intros i Hi. rewrite nth_tab by exact Hi. reflexivity.
  Qed.
  Lemma map2_shift (f : nat -> K -> K) (g : nat -> K -> K) : (forall i x, f (S i) x = g i x) ->
    forall (l : list nat) (r : list K), map2 f (map S l) r = map2 g l r.
  Proof. intros H l. induction l as [|j l IH]; intros [|x r]; cbn [map map2]; [reflexivity..|]. rewrite H, IH. reflexivity. Qed.
  Lemma identity_mle (r : list K) :
    fsum (map2 (fun i x => of_nat (2 ^ (length r - i - 1)) * x) (seq 0 (length r)) r) =
    mle (map of_nat (seq 0 (2 ^ length r))) r.
  Proof.
    induction r as [|x r IH]; [rewrite mle_nil; reflexivity|].
    cbn [length seq map2]. rewrite fsum_cons, <- seq_shift.
    replace (map2 (fun i x0 => of_nat (2 ^ (S (length r) - i - 1)) * x0) (map S (seq 0 (length r))) r)
      with (map2 (fun i x0 => of_nat (2 ^ (length r - i - 1)) * x0) (seq 0 (length r)) r).
    2: { symmetry. apply map2_shift. reflexivity. }
    rewrite IH, mle_cons. replace (S (length r) - 0 - 1)%nat with (length r) by lia.
    rewrite pow2_S.
    assert (E1 : mle (map of_nat (seq 0 (2 ^ length r + 2 ^ length r))) r = mle (map of_nat (seq 0 (2 ^ length r))) r).
    { apply mle_ext. intros i Hi. rewrite seq_app, map_app, app_nth1 by (rewrite map_length, seq_length; exact Hi). reflexivity. }
    assert (E2 : mle (skipn (2 ^ length r) (map of_nat (seq 0 (2 ^ length r + 2 ^ length r)))) r =
                 of_nat (2 ^ length r) + mle (map of_nat (seq 0 (2 ^ length r))) r).
    { rewrite <- (mle_const (of_nat (2 ^ length r)) r). unfold mle. rewrite <- sumn_plus. apply sumn_ext. intros i Hi.
      rewrite skipn_nth, nth_tab by exact Hi.
      change (map of_nat (seq 0 (2 ^ length r + 2 ^ length r))) with (tab (2 ^ length r + 2 ^ length r) (@of_nat K)).
      change (map of_nat (seq 0 (2 ^ length r))) with (tab (2 ^ length r) (@of_nat K)).
      rewrite !nth_tab by lia. rewrite of_nat_add. ring. }
    rewrite E1, E2. ring.
  Qed.
End Imp.
Arguments bind_all {K} d rs.
Arguments bind_top_list {K} r Z.
