(** The integer represented by an element (what [to_bytes] writes, read as a
    little-endian integer) and the effect of every operation on it. *)
From Coq Require Import ZArith List Bool Lia Znumtheory.
From Verif Require Import Base ListAux Limb LimbSpec LimbProofs LimbMont.
Import ListNotations.
Local Open Scope Z_scope.
Local Opaque mul square add sub neg montgomery_reduce.

Ltac zring :=
  repeat match goal with |- context [fint ?P ?a] => generalize (fint P a); intro end;
  repeat match goal with |- context [val ?a] => generalize (val a); intro end;
  repeat match goal with |- context [fold_right ?f ?a ?l] => generalize (fold_right f a l); intro end;
  repeat match goal with |- context [BB] => generalize BB; intro end;
  ring.
Ltac modeq := apply (f_equal2 Z.modulo); [zring|reflexivity].

Lemma le_bytes_length k : forall x, length (le_bytes k x) = k.
Proof. induction k; intro; simpl; [reflexivity|rewrite IHk; reflexivity]. Qed.

Lemma le_bytes_ok k : forall x, bytes_ok (le_bytes k x).
Proof.
  induction k; intro x; simpl; constructor; [|apply IHk].
  apply Z.mod_pos_bound. reflexivity.
Qed.

Lemma of_le_le_bytes k : forall x, 0 <= x -> of_le (le_bytes k x) = x mod 256 ^ Z.of_nat k.
Proof.
  induction k; intros x Hx.
  - simpl. rewrite Z.mod_1_r. reflexivity.
  - change (of_le (le_bytes (S k) x)) with (x mod 256 + 256 * of_le (le_bytes k (x / 256))).
    rewrite IHk by (apply Z.div_pos; lia).
    rewrite Nat2Z.inj_succ, Z.pow_succ_r by lia.
    rewrite Z.rem_mul_r by (try apply Z.pow_pos_nonneg; lia). reflexivity.
Qed.

Lemma of_le_app a : forall b, of_le (a ++ b) = of_le a + 256 ^ Z.of_nat (length a) * of_le b.
Proof.
  induction a as [|x t IH]; intro b; [simpl length; cbn [app of_le]; rewrite Z.pow_0_r; lia|].
  cbn [app of_le length]. rewrite IH, Nat2Z.inj_succ, Z.pow_succ_r by lia. ring.
Qed.

Lemma of_le_bound bs : bytes_ok bs -> 0 <= of_le bs < 256 ^ Z.of_nat (length bs).
Proof.
  induction 1 as [|b t Hb Ht IH]; [simpl; lia|].
  cbn [of_le length]. rewrite Nat2Z.inj_succ, Z.pow_succ_r by lia. lia.
Qed.

Lemma of_le_inj a : forall b, bytes_ok a -> bytes_ok b -> length a = length b -> of_le a = of_le b -> a = b.
Proof.
  induction a as [|x t IH]; intros [|y u] Ha Hb HL E; try discriminate; [reflexivity|].
  inversion Ha; inversion Hb; subst. cbn [of_le] in E. injection HL as HL.
  assert (x = y /\ of_le t = of_le u) as [-> E2] by lia.
  f_equal. apply IH; assumption.
Qed.

Lemma le_bytes_of_le bs : bytes_ok bs -> le_bytes (length bs) (of_le bs) = bs.
Proof.
  intro H. apply of_le_inj; [apply le_bytes_ok|assumption|apply le_bytes_length|].
  pose proof (of_le_bound bs H). rewrite of_le_le_bytes by lia. apply Z.mod_small. assumption.
Qed.

Lemma u64_word bs i j : bytes_ok bs -> (j - i <= 8)%nat -> u64 (word bs i j).
Proof.
  intros H Hl. unfold word, u64.
  assert (Hs : bytes_ok (slice bs i j)).
  { unfold bytes_ok, slice in *. apply Forall_forall. intros x Hx. rewrite Forall_forall in H. apply H.
    rewrite <- (firstn_skipn i bs). apply in_or_app. right.
    rewrite <- (firstn_skipn (j - i) (skipn i bs)). apply in_or_app. left. exact Hx. }
  pose proof (of_le_bound _ Hs) as Hb.
  assert (256 ^ Z.of_nat (length (slice bs i j)) <= 256 ^ 8).
  { apply Z.pow_le_mono_r; [lia|]. unfold slice. pose proof (firstn_le_length (j - i) (skipn i bs)). lia. }
  change (256 ^ 8) with B64 in H0. lia.
Qed.

Lemma word_split bs i : of_le (skipn i bs) = word bs i (i + 8) + 256 ^ Z.of_nat (length (slice bs i (i + 8))) * of_le (skipn (i + 8) bs).
Proof.
  unfold word. rewrite <- (firstn_skipn 8 (skipn i bs)) at 1. rewrite of_le_app.
  unfold slice. replace (i + 8 - i)%nat with 8%nat by lia.
  replace (skipn 8 (skipn i bs)) with (skipn (i + 8) bs); [reflexivity|].
  rewrite skipn_skipn. f_equal. lia.
Qed.

Lemma slice_len bs i j : (i <= j)%nat -> (j <= length bs)%nat -> length (slice bs i j) = (j - i)%nat.
Proof. intros. unfold slice. rewrite firstn_length, skipn_length. lia. Qed.

Lemma words32 bs : length bs = 32%nat ->
  of_le bs = val (Fe (word bs 0 8) (word bs 8 16) (word bs 16 24) (word bs 24 32) 0).
Proof.
  intro HL. change (of_le bs) with (of_le (skipn 0 bs)).
  rewrite (word_split bs 0), (word_split bs (0 + 8)), (word_split bs (0 + 8 + 8)), (word_split bs (0 + 8 + 8 + 8)).
  rewrite !slice_len by lia.
  rewrite (skipn_all2 bs) by lia. unfold val. cbn [l0 l1 l2 l3 l4 of_le].
  simpl (_ + _)%nat. simpl (Z.of_nat _). change (256 ^ 8) with B64. ring.
Qed.

(** folding an operation that is addition (multiplication) modulo q *)
Section FoldGen.
  Context {A : Type} (q : Z) (W : A -> Prop) (int : A -> Z) (op : A -> A -> A).
  Hypothesis Hr : forall a, W a -> 0 <= int a < q.
  Lemma fold_mul_gen (H : forall a b, W a -> W b -> W (op a b) /\ int (op a b) = (int a * int b) mod q) l :
    forall acc, W acc -> Forall W l ->
    W (fold_left op l acc) /\
    int (fold_left op l acc) = (int acc * fold_right Z.mul 1 (map int l)) mod q.
  Proof.
    induction l as [|x t IH]; intros acc Wa Hl.
    - simpl. split; [exact Wa|]. rewrite Z.mul_1_r. symmetry. apply Z.mod_small, Hr, Wa.
    - inversion Hl; subst. destruct (H acc x Wa H2) as [W1 E].
      destruct (IH _ W1 H3) as [W' E']. cbn [fold_left map fold_right]. split; [exact W'|].
      pose proof (Hr _ Wa). rewrite E', E, Z.mul_mod_idemp_l by lia. f_equal. ring.
  Qed.
  Lemma fold_add_gen (H : forall a b, W a -> W b -> W (op a b) /\ int (op a b) = (int a + int b) mod q) l :
    forall acc, W acc -> Forall W l ->
    W (fold_left op l acc) /\
    int (fold_left op l acc) = (int acc + fold_right Z.add 0 (map int l)) mod q.
  Proof.
    induction l as [|x t IH]; intros acc Wa Hl.
    - simpl. split; [exact Wa|]. rewrite Z.add_0_r. symmetry. apply Z.mod_small, Hr, Wa.
    - inversion Hl; subst. destruct (H acc x Wa H2) as [W1 E].
      destruct (IH _ W1 H3) as [W' E']. cbn [fold_left map fold_right]. split; [exact W'|].
      rewrite E', E, Zplus_mod_idemp_l. f_equal. ring.
  Qed.
End FoldGen.

Ltac qlia := try (match goal with V : valid _ _ |- _ => pose proof (v_q _ _ V) end); lia.
Section Spec.
  Variable P : params.
  Variable q : Z.
  Hypothesis V : valid P q.

  Lemma q1 : 1 < q.
  Proof. exact (v_q _ _ V). Qed.
  Hint Resolve q1 : core.

  Lemma BB_cancel x y : (x * BB) mod q = (y * BB) mod q -> x mod q = y mod q.
  Proof.
    intro H. apply (f_equal (fun z => z - (y * BB) mod q)) in H.
    assert (D : (q | (x - y) * BB)).
    { apply Zmod_divide; [qlia|].
      replace ((x - y) * BB) with (x * BB - y * BB) by ring.
      rewrite Zminus_mod. rewrite H. rewrite Z.sub_diag. apply Zmod_0_l. }
    rewrite Z.mul_comm in D. apply Z.gauss in D; [|rewrite Z.gcd_comm; apply (v_cop _ _ V)].
    destruct D as [k Hk]. replace x with (y + k * q) by qlia. apply Z_mod_plus_full.
  Qed.

  Lemma mont_to a : wf q a ->
    exists t, t = montgomery_reduce P (l0 a) (l1 a) (l2 a) (l3 a) (l4 a) 0 0 0 0 /\
      wf q t /\ (val t * BB) mod q = val a /\ l4 t = 0.
  Proof.
    intros [Ha Hl]. eexists; split; [reflexivity|].
    pose proof (q_lt _ _ V) as Hq. pose proof (val_nonneg _ Ha).
    assert (ET : T9 (l0 a) (l1 a) (l2 a) (l3 a) (l4 a) 0 0 0 0 = val a) by (unfold T9, val; ring).
    destruct Ha as (?&?&?&?&?).
    destruct (mont_spec P q (l0 a) (l1 a) (l2 a) (l3 a) (l4 a) 0 0 0 0 V) as [W E];
      try assumption; auto with u64.
    { rewrite ET. assert (BB = 2 ^ 256) by reflexivity. nia. }
    split; [assumption|]. split.
    - rewrite E, ET. apply Z.mod_small. qlia.
    - destruct W as [W1 W2]. apply limbs4; [assumption|lia].
  Qed.

  Lemma to_bytes_length a : length (to_bytes P a) = 32%nat.
  Proof. unfold to_bytes. rewrite !app_length, !le_bytes_length. reflexivity. Qed.
  Lemma to_bytes_ok a : bytes_ok (to_bytes P a).
  Proof. unfold to_bytes, bytes_ok. rewrite !Forall_app. repeat split; apply le_bytes_ok. Qed.

  Lemma fint_val a : wf q a -> 0 <= fint P a < q /\ (fint P a * BB) mod q = val a.
  Proof.
    intro W. destruct (mont_to a W) as (t & Et & [Wt Hlt] & E & H4).
    unfold fint, to_bytes. rewrite <- Et.
    pose proof (val_nonneg _ Wt) as Hn. destruct Wt as (?&?&?&?&?).
    rewrite !of_le_app, !le_bytes_length.
    rewrite !of_le_le_bytes by (unfold u64 in *; lia).
    change (256 ^ Z.of_nat 8) with B64. rewrite !Z.mod_small by assumption.
    assert (Ev : l0 t + B64 * (l1 t + B64 * (l2 t + B64 * l3 t)) = val t).
    { unfold val. rewrite H4. ring. }
    rewrite Ev. split; [lia|exact E].
  Qed.

  Lemma fint_inj a b : wf q a -> wf q b -> fint P a = fint P b -> a = b.
  Proof.
    intros Ha Hb E.
    destruct (fint_val a Ha) as [_ E1], (fint_val b Hb) as [_ E2].
    rewrite E in E1. assert (Ev : val a = val b) by congruence.
    destruct Ha as [(?&?&?&?&?) _], Hb as [(?&?&?&?&?) _].
    destruct a as [a0 a1 a2 a3 a4], b as [b0 b1 b2 b3 b4].
    unfold val in Ev. cbn [l0 l1 l2 l3 l4] in *. unfold u64 in *. clear E E1 E2.
    assert (a0 = b0 /\ a1 = b1 /\ a2 = b2 /\ a3 = b3 /\ a4 = b4) as (->&->&->&->&->)
      by (rewrite B64_val in *; lia).
    reflexivity.
  Qed.

  (** it is enough to know the Montgomery value *)
  Lemma fint_unique a x : wf q a -> val a mod q = (x * BB) mod q -> fint P a = x mod q.
  Proof.
    intros W E. destruct (fint_val a W) as [Hr Ev].
    rewrite <- Ev in E. rewrite Z.mod_mod in E by qlia. apply BB_cancel in E.
    rewrite Z.mod_small in E by assumption. exact E.
  Qed.

  Lemma val_mod a : wf q a -> val a mod q = val a.
  Proof. intros [W H]. apply Z.mod_small. pose proof (val_nonneg _ W). qlia. Qed.

  Lemma fint_add a b : wf q a -> wf q b -> wf q (add P a b) /\ fint P (add P a b) = (fint P a + fint P b) mod q.
  Proof.
    intros Ha Hb. destruct (add_spec P q a b V Ha Hb) as [W E]. split; [exact W|].
    apply fint_unique; [exact W|]. rewrite E, Z.mod_mod by qlia.
    destruct (fint_val a Ha) as [_ Ea], (fint_val b Hb) as [_ Eb].
    rewrite <- Ea, <- Eb, <- Z.add_mod by qlia. modeq.
  Qed.
  Lemma fint_sub a b : wf q a -> wf q b -> wf q (sub P a b) /\ fint P (sub P a b) = (fint P a - fint P b) mod q.
  Proof.
    intros Ha Hb. destruct (sub_spec P q a b V Ha Hb) as [W E]. split; [exact W|].
    apply fint_unique; [exact W|]. rewrite E, Z.mod_mod by qlia.
    destruct (fint_val a Ha) as [_ Ea], (fint_val b Hb) as [_ Eb].
    rewrite <- Ea, <- Eb, <- Zminus_mod by qlia. modeq.
  Qed.
  Lemma fint_neg a : wf q a -> wf q (neg P a) /\ fint P (neg P a) = (- fint P a) mod q.
  Proof.
    intros Ha. destruct (neg_spec P q a V Ha) as [W E]. split; [exact W|].
    apply fint_unique; [exact W|]. rewrite E, Z.mod_mod by qlia.
    destruct (fint_val a Ha) as [_ Ea].
    rewrite <- Ea. rewrite <- Z.sub_0_l, Zminus_mod_idemp_r. modeq.
  Qed.

  (** operands that are only 256-bit on the left *)
  Lemma fint_mul_gen a b y : limbs_ok a -> val a < BB -> wf q b -> val b = (y * BB * BB) mod q ->
    wf q (mul P a b) /\ fint P (mul P a b) = (val a * y) mod q.
  Proof.
    intros Ha Hl Hb Ey. destruct (mul_spec_gen P q a b V Ha Hl Hb) as [W E]. split; [exact W|].
    apply fint_unique; [exact W|]. apply BB_cancel.
    rewrite E, Ey, Z.mul_mod_idemp_r by qlia. modeq.
  Qed.
  Lemma fint_mul a b : wf q a -> wf q b -> wf q (mul P a b) /\ fint P (mul P a b) = (fint P a * fint P b) mod q.
  Proof.
    intros Ha Hb. destruct (mul_spec P q a b V Ha Hb) as [W E]. split; [exact W|].
    apply fint_unique; [exact W|]. apply BB_cancel.
    destruct (fint_val a Ha) as [_ Ea], (fint_val b Hb) as [_ Eb].
    rewrite E, <- Ea, <- Eb, <- Z.mul_mod by qlia. modeq.
  Qed.
  Lemma fint_square a : wf q a -> wf q (square P a) /\ fint P (square P a) = (fint P a * fint P a) mod q.
  Proof.
    intros Ha. destruct (square_spec P q a V Ha) as [W E]. split; [exact W|].
    apply fint_unique; [exact W|]. apply BB_cancel.
    destruct (fint_val a Ha) as [_ Ea].
    rewrite E, <- Ea, <- Z.mul_mod by qlia. modeq.
  Qed.

  Lemma fint_zero : wf q zero /\ fint P zero = 0.
  Proof.
    assert (W : wf q zero) by (split; [repeat split; apply u64_0|unfold val; cbn; qlia]).
    split; [exact W|]. rewrite <- (Zmod_0_l q). apply fint_unique; [exact W|]. reflexivity.
  Qed.
  Lemma fint_one : wf q (one P) /\ fint P (one P) = 1.
  Proof.
    destruct (v_r _ _ V) as [W E]. split; [exact W|].
    rewrite <- (Z.mod_1_l q) by qlia. apply fint_unique; [exact W|].
    unfold one. rewrite E, Z.mod_mod by qlia. modeq.
  Qed.

  Lemma eqb_spec_wf a b : wf q a -> wf q b -> eqb a b = true <-> fint P a = fint P b.
  Proof.
    intros Ha Hb. split.
    - intro E. unfold eqb in E. rewrite !andb_true_iff, !Z.eqb_eq in E.
      assert (H4a : l4 a = 0) by (destruct Ha; apply limbs4; [assumption|pose proof (q_lt _ _ V); qlia]).
      assert (H4b : l4 b = 0) by (destruct Hb; apply limbs4; [assumption|pose proof (q_lt _ _ V); qlia]).
      destruct a as [a0 a1 a2 a3 a4], b as [b0 b1 b2 b3 b4]. cbn [l0 l1 l2 l3 l4] in *.
      destruct E as (((-> & ->) & ->) & ->). subst. reflexivity.
    - intro E. apply fint_inj in E; [|assumption..]. subst.
      unfold eqb. rewrite !Z.eqb_refl. reflexivity.
  Qed.

  Lemma from_raw_spec v0 v1 v2 v3 : u64 v0 -> u64 v1 -> u64 v2 -> u64 v3 ->
    wf q (from_raw P v0 v1 v2 v3) /\
    fint P (from_raw P v0 v1 v2 v3) = val (Fe v0 v1 v2 v3 0) mod q.
  Proof.
    intros. destruct (v_r2 _ _ V) as [W E].
    destruct (fint_mul_gen (Fe v0 v1 v2 v3 0) (R2 P) 1) as [H3 H4].
    - unfold limbs_ok; cbn [l0 l1 l2 l3 l4]; pose proof u64_0; tauto.
    - unfold val, BB, u64 in *. cbn [l0 l1 l2 l3 l4]. rewrite B64_val in *. qlia.
    - exact W.
    - rewrite E. modeq.
    - split; [exact H3|]. unfold from_raw. rewrite H4. modeq.
  Qed.
  Lemma from_u64_spec v : u64 v -> wf q (from_u64 P v) /\ fint P (from_u64 P v) = v mod q.
  Proof.
    intro H. destruct (from_raw_spec v 0 0 0 H u64_0 u64_0 u64_0) as [W E].
    split; [exact W|]. unfold from_u64. change (mul P (Fe v 0 0 0 0) (R2 P)) with (from_raw P v 0 0 0).
    rewrite E. f_equal. unfold val. cbn [l0 l1 l2 l3 l4]. ring.
  Qed.

  Lemma from_u512_spec a0 a1 a2 a3 a4 a5 a6 a7 :
    u64 a0 -> u64 a1 -> u64 a2 -> u64 a3 -> u64 a4 -> u64 a5 -> u64 a6 -> u64 a7 ->
    wf q (from_u512 P a0 a1 a2 a3 a4 a5 a6 a7) /\
    fint P (from_u512 P a0 a1 a2 a3 a4 a5 a6 a7) =
      (val (Fe a0 a1 a2 a3 0) + BB * val (Fe a4 a5 a6 a7 0)) mod q.
  Proof.
    intros. destruct (from_raw_spec a0 a1 a2 a3) as [W1 E1]; [assumption..|].
    destruct (v_r3 _ _ V) as [W E].
    destruct (fint_mul_gen (Fe a4 a5 a6 a7 0) (R3 P) BB) as [W2 E2].
    - unfold limbs_ok; cbn [l0 l1 l2 l3 l4]; pose proof u64_0; tauto.
    - unfold val, BB, u64 in *. cbn [l0 l1 l2 l3 l4]. rewrite B64_val in *. qlia.
    - exact W.
    - exact E.
    - unfold from_u512. change (mul P (Fe a0 a1 a2 a3 0) (R2 P)) with (from_raw P a0 a1 a2 a3).
      destruct (fint_add _ _ W1 W2) as [W3 E3]. split; [exact W3|].
      rewrite E3, E1, E2, <- Z.add_mod by qlia. modeq.
  Qed.

  Lemma from_bytes_wide_spec bs : length bs = 64%nat -> bytes_ok bs ->
    wf q (from_bytes_wide P bs) /\ fint P (from_bytes_wide P bs) = of_le bs mod q.
  Proof.
    intros HL Hb. unfold from_bytes_wide.
    destruct (from_u512_spec (word bs 0 8) (word bs 8 16) (word bs 16 24) (word bs 24 32)
        (word bs 32 40) (word bs 40 48) (word bs 48 56) (word bs 56 64)) as [W E];
      try (apply u64_word; [exact Hb|lia]).
    split; [exact W|]. rewrite E. f_equal.
    change (of_le bs) with (of_le (skipn 0 bs)).
    rewrite (word_split bs 0), (word_split bs (0 + 8)), (word_split bs (0 + 8 + 8)), (word_split bs (0 + 8 + 8 + 8)),
      (word_split bs (0 + 8 + 8 + 8 + 8)), (word_split bs (0 + 8 + 8 + 8 + 8 + 8)),
      (word_split bs (0 + 8 + 8 + 8 + 8 + 8 + 8)), (word_split bs (0 + 8 + 8 + 8 + 8 + 8 + 8 + 8)).
    rewrite !slice_len by qlia. rewrite (skipn_all2 bs) by qlia.
    unfold val. cbn [l0 l1 l2 l3 l4 of_le].
    simpl (_ + _)%nat. simpl (Z.of_nat _). change (256 ^ 8) with B64. unfold BB. ring.
  Qed.

  Lemma from_bytes_spec bs : length bs = 32%nat -> bytes_ok bs ->
    match from_bytes P bs with
    | Some a => wf q a /\ of_le bs < q /\ fint P a = of_le bs
    | None => q <= of_le bs
    end.
  Proof.
    intros HL Hb.
    pose proof (words32 bs HL) as EV.
    assert (U0 : u64 (word bs 0 8)) by (apply u64_word; [exact Hb|lia]).
    assert (U1 : u64 (word bs 8 16)) by (apply u64_word; [exact Hb|lia]).
    assert (U2 : u64 (word bs 16 24)) by (apply u64_word; [exact Hb|lia]).
    assert (U3 : u64 (word bs 24 32)) by (apply u64_word; [exact Hb|lia]).
    destruct (from_raw_spec _ _ _ _ U0 U1 U2 U3) as [W E].
    rewrite <- EV in E. unfold from_raw in *.
    unfold from_bytes.
    pose proof (v_m _ _ V) as Hq. pose proof (v_m4 _ _ V) as Hm4.
    destruct (v_ml _ _ V) as (?&?&?&?&?).
    sbb_step 0 (or_introl eq_refl : 0 = 0 \/ 0 = 1).
    sbb_step bit HB. sbb_step bit0 HB0. sbb_step bit1 HB1.
    assert (Hd : 0 <= of_le bs - q + BB * bit2 < BB).
    { assert (Ed : of_le bs - q + BB * bit2 = val (Fe d d0 d1 d2 0)).
      { rewrite EV, <- Hq. unfold val. rewrite Hm4. cbn [l0 l1 l2 l3 l4]. subst. unfold BB. ring. }
      rewrite Ed. unfold val, BB, u64 in *. cbn [l0 l1 l2 l3 l4]. rewrite B64_val in *. qlia. }
    pose proof (of_le_bound bs Hb) as Hbd. rewrite HL in Hbd. change (256 ^ Z.of_nat 32) with BB in Hbd.
    pose proof (q_lt _ _ V) as Hqb.
    destruct HB2 as [-> | ->]; subst w2.
    - replace (Z.land ((0 * (B64 - 1)) mod 256) 1 =? 1) with false by reflexivity. qlia.
    - replace (Z.land ((1 * (B64 - 1)) mod 256) 1 =? 1) with true by reflexivity.
      split; [exact W|]. split; [qlia|]. rewrite E. apply Z.mod_small. qlia.
  Qed.

  (** powers *)
  Definition is_pow (a : fe) (x : fe) (e : Z) : Prop :=
    wf q x /\ 0 <= e /\ fint P x = (fint P a ^ e) mod q.
  Lemma ip_one a : is_pow a (one P) 0.
  Proof.
    destruct fint_one as [W E]. split; [exact W|split; [qlia|]].
    rewrite E, Z.pow_0_r, Z.mod_1_l; qlia.
  Qed.
  Lemma ip_self a : wf q a -> is_pow a a 1.
  Proof.
    intro W. split; [exact W|split; [qlia|]]. rewrite Z.pow_1_r.
    symmetry. apply Z.mod_small. apply fint_val. exact W.
  Qed.
  Lemma ip_mul a x y e f : is_pow a x e -> is_pow a y f -> is_pow a (mul P x y) (e + f).
  Proof.
    intros (W1 & H1 & E1) (W2 & H2 & E2). destruct (fint_mul x y W1 W2) as [W E].
    split; [exact W|split; [qlia|]]. rewrite E, E1, E2, <- Z.mul_mod, <- Z.pow_add_r by qlia. reflexivity.
  Qed.
  Lemma ip_square a x e : is_pow a x e -> is_pow a (square P x) (2 * e).
  Proof.
    intros (W1 & H1 & E1). destruct (fint_square x W1) as [W E].
    split; [exact W|split; [qlia|]]. rewrite E, E1, <- Z.mul_mod, <- Z.pow_add_r by qlia. f_equal. f_equal. qlia.
  Qed.
  Lemma ip_pow2k a k : forall x e, is_pow a x e -> is_pow a (pow2k P x k) (e * 2 ^ Z.of_nat k).
  Proof.
    induction k; intros x e H.
    - simpl. rewrite Z.mul_1_r. exact H.
    - rewrite Nat2Z.inj_succ, Z.pow_succ_r by qlia. simpl pow2k.
      replace (e * (2 * 2 ^ Z.of_nat k)) with (2 * e * 2 ^ Z.of_nat k) by ring.
      apply IHk, ip_square, H.
  Qed.

  Lemma bit_case e i : 0 <= e -> Z.land (Z.shiftr e i) 1 = (if Z.testbit e i then 1 else 0).
  Proof.
    intro He. change 1 with (Z.ones 1) at 1. rewrite Z.land_ones by qlia. change (2 ^ 1) with 2.
    rewrite Zmod_odd. rewrite <- Z.bit0_odd.
    destruct (Z_le_gt_dec 0 i).
    - rewrite Z.shiftr_spec by qlia. rewrite Z.add_0_l. reflexivity.
    - rewrite Z.shiftr_spec by qlia. rewrite Z.add_0_l. rewrite Z.testbit_neg_r by qlia. reflexivity.
  Qed.

  Lemma pow_step_spec a e x f i : wf q a -> 0 <= e -> is_pow a x f ->
    is_pow a (pow_step P a e x i) (2 * f + (if Z.testbit e (Z.of_nat i) then 1 else 0)).
  Proof.
    intros Wa He H. unfold pow_step, conditional_select. rewrite bit_case by exact He.
    apply ip_square in H. destruct (Z.testbit e (Z.of_nat i)); cbn [Z.eqb Pos.eqb].
    - apply ip_mul; [exact H|apply ip_self, Wa].
    - rewrite Z.add_0_r. exact H.
  Qed.

  Lemma pow_word_fold a e : wf q a -> 0 <= e -> forall k x f, is_pow a x f ->
    is_pow a (fold_left (pow_step P a e) (rev (seq 0 k)) x) (f * 2 ^ Z.of_nat k + e mod 2 ^ Z.of_nat k).
  Proof.
    intros Wa He. induction k; intros x f H.
    - simpl. rewrite Z.mod_1_r, Z.mul_1_r, Z.add_0_r. exact H.
    - rewrite seq_S, rev_app_distr. cbn [rev app fold_left].
      rewrite Nat.add_0_l.
      pose proof (pow_step_spec a e x f k Wa He H) as Hs.
      apply IHk in Hs.
      replace (f * 2 ^ Z.of_nat (S k) + e mod 2 ^ Z.of_nat (S k))
        with ((2 * f + (if Z.testbit e (Z.of_nat k) then 1 else 0)) * 2 ^ Z.of_nat k + e mod 2 ^ Z.of_nat k); [exact Hs|].
      rewrite Nat2Z.inj_succ, Z.pow_succ_r by qlia.
      set (b := Z.of_nat k). assert (Hb : 0 <= b) by (unfold b; lia).
      assert (Hp : 0 < 2 ^ b) by (apply Z.pow_pos_nonneg; lia).
      rewrite (Z.mul_comm 2 (2 ^ b)), Z.rem_mul_r by qlia.
      assert (Hbit : (e / 2 ^ b) mod 2 = if Z.testbit e b then 1 else 0).
      { rewrite Zmod_odd, <- Z.bit0_odd, Z.div_pow2_bits by qlia. rewrite Z.add_0_l. reflexivity. }
      rewrite Hbit. destruct (Z.testbit e b); ring.
  Qed.


  Lemma of_words_nonneg ws : Forall u64 ws -> 0 <= of_words ws.
  Proof. induction 1; cbn [of_words]; [qlia|]. unfold u64 in *. rewrite B64_val in *. qlia. Qed.

  Lemma pow_fold a ws : wf q a -> Forall u64 ws ->
    is_pow a (fold_left (pow_word P a) (rev ws) (one P)) (of_words ws).
  Proof.
    intros Wa. induction 1 as [|w t Hw Ht IH].
    - simpl. apply ip_one.
    - simpl rev. rewrite fold_left_app. cbn [fold_left of_words].
      unfold pow_word at 1.
      assert (He : 0 <= w) by (unfold u64 in Hw; lia).
      pose proof (pow_word_fold a w Wa He 64 _ _ IH) as Hf.
      change (2 ^ Z.of_nat 64) with B64 in Hf. rewrite (Z.mod_small w) in Hf by exact Hw.
      replace (w + B64 * of_words t) with (of_words t * B64 + w) by ring. exact Hf.
  Qed.

  Lemma pow_spec a ws : wf q a -> Forall u64 ws ->
    wf q (pow P a ws) /\ fint P (pow P a ws) = (fint P a ^ of_words ws) mod q.
  Proof. intros Wa H. destruct (pow_fold a ws Wa H) as (W & _ & E). split; assumption. Qed.

  Lemma pow_vartime_eq a ws : pow_vartime P a ws = pow P a ws.
  Proof.
    unfold pow_vartime, pow, pow_word, pow_step, pow_vartime_step, conditional_select. reflexivity.
  Qed.

  Lemma pow_by_self_spec a e : wf q a -> wf q e ->
    wf q (pow_by_self P a e) /\ fint P (pow_by_self P a e) = (fint P a ^ fint P e) mod q.
  Proof.
    intros Wa We. unfold pow_by_self.
    pose proof (to_bytes_ok e) as Hb. pose proof (to_bytes_length e) as HL.
    destruct (pow_spec a [word (to_bytes P e) 0 8; word (to_bytes P e) 8 16; word (to_bytes P e) 16 24; word (to_bytes P e) 24 32] Wa)
      as [W E].
    { repeat constructor; try (apply u64_word; [exact Hb|lia]). }
    split; [exact W|]. rewrite E. f_equal. f_equal.
    unfold fint. rewrite (words32 _ HL). unfold val. cbn [of_words l0 l1 l2 l3 l4]. ring.
  Qed.

  Lemma fold_mul l acc : wf q acc -> Forall (wf q) l ->
    wf q (fold_left (mul P) l acc) /\
    fint P (fold_left (mul P) l acc) = (fint P acc * fold_right Z.mul 1 (map (fint P) l)) mod q.
  Proof. apply (fold_mul_gen q (wf q) (fint P) (mul P) (fun a W => proj1 (fint_val a W)) fint_mul). Qed.
  Lemma fold_add l acc : wf q acc -> Forall (wf q) l ->
    wf q (fold_left (add P) l acc) /\
    fint P (fold_left (add P) l acc) = (fint P acc + fold_right Z.add 0 (map (fint P) l)) mod q.
  Proof. apply (fold_add_gen q (wf q) (fint P) (add P) (fun a W => proj1 (fint_val a W)) fint_add). Qed.
  Lemma product_spec l : Forall (wf q) l ->
    wf q (product P l) /\ fint P (product P l) = fold_right Z.mul 1 (map (fint P) l) mod q.
  Proof.
    intro H. destruct fint_one as [W E]. destruct (fold_mul l (one P) W H) as [W' E'].
    split; [exact W'|]. unfold product. rewrite E', E. modeq.
  Qed.
  Lemma sum_spec l : Forall (wf q) l ->
    wf q (sum P l) /\ fint P (sum P l) = fold_right Z.add 0 (map (fint P) l) mod q.
  Proof.
    intro H. destruct fint_zero as [W E]. destruct (fold_add l zero W H) as [W' E'].
    split; [exact W'|]. unfold sum. rewrite E', E. f_equal.
  Qed.

  Lemma invert_spec f a : modinv_ok q f -> wf q a ->
    match invert P f a with
    | Some b => wf q b /\ (fint P a * fint P b) mod q = 1
    | None => fint P a = 0
    end.
  Proof.
    intros Hf Wa. unfold invert. fold (fint P a).
    destruct (fint_val a Wa) as [Hr _]. specialize (Hf _ Hr).
    destruct (f (fint P a)) as [v|]; [|exact Hf].
    destruct Hf as [Hv E].
    destruct (from_bytes_wide_spec (le_bytes 64 v) (le_bytes_length _ _) (le_bytes_ok _ _)) as [W E2].
    split; [exact W|]. rewrite E2, of_le_le_bytes by qlia.
    rewrite (Z.mod_small v (256 ^ Z.of_nat 64)).
    - rewrite (Z.mod_small v q) by exact Hv. exact E.
    - pose proof (q_lt _ _ V). assert (BB < 256 ^ Z.of_nat 64) by reflexivity. qlia.
  Qed.

  (** batch inversion *)
  Fixpoint zprod (l : list Z) : Z := match l with [] => 1 | x :: t => x * zprod t end.

  Lemma bi_fwd_app l : forall acc x,
    bi_fwd P acc (l ++ [x]) =
    (fst (bi_fwd P acc l) ++ [snd (bi_fwd P acc l)], mul P (snd (bi_fwd P acc l)) x).
  Proof.
    induction l as [|y t IH]; intros acc x; [reflexivity|].
    cbn [app bi_fwd]. rewrite IH. destruct (bi_fwd P (mul P acc y) t) as [s a]. reflexivity.
  Qed.

  Lemma bi_fwd_length l : forall acc, length (fst (bi_fwd P acc l)) = length l.
  Proof.
    induction l as [|y t IH]; intros acc; [reflexivity|].
    cbn [bi_fwd]. specialize (IH (mul P acc y)). destruct (bi_fwd P (mul P acc y) t) as [s a].
    simpl in *. qlia.
  Qed.

  Lemma bi_fwd_spec l : forall acc, wf q acc -> Forall (wf q) l ->
    wf q (snd (bi_fwd P acc l)) /\
    fint P (snd (bi_fwd P acc l)) = (fint P acc * zprod (map (fint P) l)) mod q.
  Proof.
    induction l as [|x t IH]; intros acc Wa Hl.
    - cbn [bi_fwd snd map zprod]. split; [exact Wa|]. rewrite Z.mul_1_r. symmetry. apply Z.mod_small, fint_val, Wa.
    - inversion Hl; subst. cbn [bi_fwd]. destruct (fint_mul acc x Wa H1) as [W E].
      specialize (IH _ W H2). destruct (bi_fwd P (mul P acc x) t) as [s a]. cbn [snd] in *.
      destruct IH as [IW IE]. split; [exact IW|].
      rewrite IE, E. cbn [map zprod]. rewrite Z.mul_mod_idemp_l by qlia.
      apply (f_equal2 Z.modulo); [|reflexivity]. generalize (zprod (map (fint P) t)). intro. zring.
  Qed.

  Lemma bi_bwd_spec l : forall acc, wf q acc -> Forall (wf q) l ->
    (fint P acc * zprod (map (fint P) l)) mod q = 1 ->
    let out := rev (bi_bwd P acc (rev (combine l (fst (bi_fwd P (one P) l))))) in
    Forall (wf q) out /\
    Forall2 (fun x y => (fint P x * fint P y) mod q = 1) l out.
  Proof.
    induction l as [|x l IH] using rev_ind; intros acc Wa Hl Hp; [split; constructor|].
    apply Forall_app in Hl. destruct Hl as [Hl Hx]. inversion Hx as [|? ? Wx _]; subst.
    cbv zeta. rewrite bi_fwd_app. cbn [fst].
    assert (Ec : combine (l ++ [x]) (fst (bi_fwd P (one P) l) ++ [snd (bi_fwd P (one P) l)]) =
                 combine l (fst (bi_fwd P (one P) l)) ++ [(x, snd (bi_fwd P (one P) l))]).
    { generalize (bi_fwd_length l (one P)). generalize (fst (bi_fwd P (one P) l)).
      generalize (snd (bi_fwd P (one P) l)). clear. intro z.
      induction l as [|y t IH]; intros [|s u] HL; try discriminate; [reflexivity|].
      simpl. f_equal. apply IH. simpl in HL. qlia. }
    rewrite Ec, rev_app_distr. cbn [rev app bi_bwd].
    destruct fint_one as [W1 E1].
    destruct (bi_fwd_spec l (one P) W1 Hl) as [Ws Es]. rewrite E1, Z.mul_1_l in Es.
    destruct (fint_mul acc x Wa Wx) as [Wn En].
    assert (Hprod : zprod (map (fint P) (l ++ [x])) = zprod (map (fint P) l) * fint P x).
    { clear. rewrite map_app. induction (map (fint P) l) as [|y t IH]; cbn [app map zprod] in *; [ring|]. rewrite IH. ring. }
    destruct (IH (mul P acc x) Wn Hl) as [F1 F2].
    { rewrite En, Z.mul_mod_idemp_l by qlia. rewrite Hprod in Hp. rewrite <- Hp. f_equal. ring. }
    destruct (fint_mul acc _ Wa Ws) as [Wo Eo].
    split.
    - apply Forall_app. split; [exact F1|]. constructor; [exact Wo|constructor].
    - apply Forall2_app; [exact F2|]. constructor; [|constructor].
      rewrite Eo, Es, <- Hp, Hprod.
      generalize (fint P acc), (fint P x), (zprod (map (fint P) l)). intros u v w.
      rewrite Z.mul_mod_idemp_r by qlia.
      replace (v * (u * (w mod q))) with ((v * u) * (w mod q)) by ring.
      rewrite Z.mul_mod_idemp_r by qlia. f_equal. ring.
  Qed.

  Lemma zprod_zero l : In 0 l -> zprod l = 0.
  Proof.
    induction l as [|x t IH]; intros H; [destruct H|]. cbn [zprod].
    destruct H as [-> | H]; [ring|]. rewrite IH by assumption. ring.
  Qed.
  Lemma zprod_nonzero l : prime q -> Forall (fun x => 0 < x < q) l -> zprod l mod q <> 0.
  Proof.
    intros Hp. induction 1 as [|x t Hx Ht IH]; cbn [zprod].
    - rewrite Z.mod_1_l by qlia. qlia.
    - intro H. apply Zmod_divide in H; [|lia]. apply prime_mult in H; [|exact Hp].
      destruct H as [H|H].
      + apply Z.divide_pos_le in H; qlia.
      + apply IH. apply Zdivide_mod. exact H.
  Qed.

  Definition inv_ok (inv : fe -> option fe) : Prop :=
    forall a, wf q a -> match inv a with
      | Some b => wf q b /\ (fint P a * fint P b) mod q = 1
      | None => fint P a = 0
      end.

  Lemma batch_invert_ok inv l : inv_ok inv -> prime q ->
    Forall (wf q) l -> Forall (fun x => fint P x <> 0) l ->
    exists out r, batch_invert P inv l = Ok (out, r) /\
      Forall (wf q) out /\ Forall2 (fun x y => (fint P x * fint P y) mod q = 1) l out /\
      wf q r /\ (fint P r * zprod (map (fint P) l)) mod q = 1.
  Proof.
    intros Hi Hp Hl Hnz. unfold batch_invert.
    destruct fint_one as [W1 E1].
    destruct (bi_fwd_spec l (one P) W1 Hl) as [Ws Es].
    pose proof (bi_bwd_spec l) as HB.
    destruct (bi_fwd P (one P) l) as [s a]. cbn [fst snd] in *.
    rewrite E1, Z.mul_1_l in Es. specialize (Hi a Ws).
    assert (Hne : fint P a <> 0).
    { rewrite Es. apply zprod_nonzero; [exact Hp|]. clear - Hl Hnz V.
      induction Hl as [|x t Wx Ht IH]; [constructor|]. inversion Hnz; subst. cbn [map]. constructor; [|apply IH; assumption].
      destruct (fint_val x Wx). qlia. }
    destruct (inv a) as [b|]; [|contradiction].
    destruct Hi as [Wb Eb].
    assert (Hp1 : (fint P b * zprod (map (fint P) l)) mod q = 1).
    { rewrite Z.mul_comm, <- Z.mul_mod_idemp_l, <- Es by qlia. exact Eb. }
    destruct (HB b Wb Hl Hp1) as [F1 F2].
    eexists. exists b. split; [reflexivity|]. split; [exact F1|]. split; [exact F2|]. split; assumption.
  Qed.

  Lemma batch_invert_zero inv l : inv_ok inv ->
    Forall (wf q) l -> Exists (fun x => fint P x = 0) l -> batch_invert P inv l = Panic.
  Proof.
    intros Hi Hl Hz. unfold batch_invert.
    destruct fint_one as [W1 E1].
    destruct (bi_fwd_spec l (one P) W1 Hl) as [Ws Es].
    destruct (bi_fwd P (one P) l) as [s a]. cbn [fst snd] in *.
    assert (In 0 (map (fint P) l)).
    { apply Exists_exists in Hz. destruct Hz as (x & Hx & E). rewrite <- E. apply in_map, Hx. }
    rewrite zprod_zero, Z.mul_0_r, Zmod_0_l in Es by assumption.
    specialize (Hi a Ws). destruct (inv a) as [b|]; [|reflexivity].
    destruct Hi as [_ Hi]. rewrite Es, Z.mul_0_l, Zmod_0_l in Hi. discriminate.
  Qed.

  Lemma visit_seq_spec bs : (32 <= length bs)%nat -> bytes_ok bs ->
    exists a, visit_seq P bs = Ok a /\ wf q a /\ fint P a = of_le (firstn 32 bs) mod q.
  Proof.
    intros HL Hb. unfold visit_seq. rewrite (proj2 (Nat.leb_le _ _) HL).
    eexists; split; [reflexivity|].
    destruct (from_raw_spec (word bs 0 8) (word bs 8 16) (word bs 16 24) (word bs 24 32)) as [W E];
      try (apply u64_word; [exact Hb|lia]).
    split; [exact W|]. rewrite E. f_equal.
    assert (HL2 : length (firstn 32 bs) = 32%nat) by (rewrite firstn_length; lia).
    rewrite (words32 _ HL2).
    assert (Hw : forall i j, (j <= 32)%nat -> word (firstn 32 bs) i j = word bs i j).
    { intros i j Hj. unfold word, slice. f_equal. rewrite skipn_firstn_comm, firstn_firstn. f_equal. qlia. }
    rewrite !Hw by qlia. reflexivity.
  Qed.

  Lemma to_be_bytes_spec a : to_be_bytes P a = rev (to_bytes P a).
  Proof. unfold to_be_bytes, to_bytes. rewrite !rev_app_distr, !app_assoc. reflexivity. Qed.

  Lemma is_odd_spec a : wf q a -> is_odd P a = Z.odd (fint P a).
  Proof.
    intro W. destruct (mont_to a W) as (t & Et & [Wt Hlt] & E & H4).
    unfold is_odd. unfold fint, to_bytes. rewrite <- Et.
    destruct Wt as (H0 & _).
    rewrite of_le_app, le_bytes_length, of_le_le_bytes by (unfold u64 in *; lia).
    change (256 ^ Z.of_nat 8) with B64. rewrite (Z.mod_small _ B64) by exact H0.
    rewrite Z.odd_add, Z.odd_mul. replace (Z.odd B64) with false by reflexivity.
    rewrite andb_false_l, xorb_false_r.
    change 1 with (Z.ones 1). rewrite Z.land_ones by qlia. change (2 ^ 1) with 2.
    replace ((l0 t mod 256) mod 2) with (l0 t mod 2).
    - rewrite Zmod_odd. destruct (Z.odd (l0 t)); reflexivity.
    - apply Zmod_div_mod; try qlia. exists 128. reflexivity.
  Qed.
End Spec.
