(** The Keccak templates compute the Keccak specification on bits. *)
From Coq Require Import ZArith List Bool Arith Lia Field Ring.
From Verif Require Import Base Primes Field Zq CircModel PosSpec KecModel KecSpec.
Import ListNotations.

Section Kec.
  Context {K : Fld}.
  Add Field Kkec : (fth K).
  Local Open Scope fld_scope.
  Local Notation bo := (@bit_of K).

  (** ** gates on bits *)
  Lemma xor_bo a b : xor_gate (bo a) (bo b) = bo (xorb a b).
  Proof. unfold xor_gate, cst2. destruct a, b; cbn; ring. Qed.
  Lemma or_bo a b : or_gate (bo a) (bo b) = bo (orb a b).
  Proof. unfold or_gate. destruct a, b; cbn; ring. Qed.
  Lemma and_bo a b : and_gate (bo a) (bo b) = bo (andb a b).
  Proof. unfold and_gate. destruct a, b; cbn; ring. Qed.
  Lemma xor3_bo a b c : xor3_gate (bo a) (bo b) (bo c) = bo (xorb a (xorb b c)).
  Proof. unfold xor3_gate, cst2. cbv zeta. destruct a, b, c; cbn; ring. Qed.

  (** the list [l] of [n] signals holds the bits [f] *)
  Definition reps (n : nat) (l : list K) (f : nat -> bool) : Prop :=
    length l = n /\ forall i, (i < n)%nat -> nth i l 0 = bo (f i).

  Lemma reps_ext n l f g : reps n l f -> (forall i, (i < n)%nat -> f i = g i) -> reps n l g.
  Proof. intros [L H] E. split; [exact L|]. intros i Hi. rewrite <- (E i Hi). apply H, Hi. Qed.

  Lemma map2_len {A B C} (f : A -> B -> C) a : forall b, length (map2 f a b) = Nat.min (length a) (length b).
  Proof. induction a as [|x a IH]; intros [|y b]; cbn [map2 length]; [reflexivity..|]. rewrite IH. reflexivity. Qed.
  Lemma map2_nth {A B C} (f : A -> B -> C) da db dc a : forall b i, (i < length a)%nat -> (i < length b)%nat ->
    nth i (map2 f a b) dc = f (nth i a da) (nth i b db).
  Proof.
    induction a as [|x a IH]; intros [|y b] [|i] H1 H2; cbn in *; try lia; [reflexivity|]. apply IH; lia.
  Qed.

  Lemma reps_map2 (g : K -> K -> K) (h : bool -> bool -> bool) n a b f1 f2 :
    (forall x y, g (bo x) (bo y) = bo (h x y)) -> reps n a f1 -> reps n b f2 ->
    reps n (map2 g a b) (fun i => h (f1 i) (f2 i)).
  Proof.
    intros G [La Ha] [Lb Hb]. split; [rewrite map2_len, La, Lb; apply Nat.min_id|].
    intros i Hi. rewrite (map2_nth g 0 0 0) by lia. rewrite (Ha i Hi), (Hb i Hi). apply G.
  Qed.
  Lemma reps_xor n a b f1 f2 : reps n a f1 -> reps n b f2 -> reps n (xor_array a b) (fun i => xorb (f1 i) (f2 i)).
  Proof. exact (reps_map2 xor_gate xorb n a b f1 f2 xor_bo). Qed.
  Lemma reps_or n a b f1 f2 : reps n a f1 -> reps n b f2 -> reps n (or_array a b) (fun i => orb (f1 i) (f2 i)).
  Proof. exact (reps_map2 or_gate orb n a b f1 f2 or_bo). Qed.
  Lemma reps_and n a b f1 f2 : reps n a f1 -> reps n b f2 -> reps n (and_array a b) (fun i => andb (f1 i) (f2 i)).
  Proof. exact (reps_map2 and_gate andb n a b f1 f2 and_bo). Qed.
  Lemma reps_xor1 n a f : reps n a f -> reps n (xor_single a) (fun i => xorb (f i) true).
  Proof.
    intros [L H]. split; [unfold xor_single; rewrite map_length; exact L|]. intros i Hi. unfold xor_single.
    rewrite (nth_indep _ 0 (xor_gate 0 1)) by (rewrite map_length; lia).
    rewrite (map_nth (fun x => xor_gate x 1)), (H i Hi). exact (xor_bo (f i) true).
  Qed.
  Lemma reps_xor3 n a b c f g h : reps n a f -> reps n b g -> reps n c h ->
    reps n (xor3 a b c) (fun i => xorb (f i) (xorb (g i) (h i))).
  Proof.
    intros [La Ha] [Lb Hb] [Lc Hc]. unfold xor3. split; [rewrite !map2_len, La, Lb, Lc; lia|]. intros i Hi.
    rewrite (map2_nth (fun (x : K) (f : K -> K) => f x) 0 (fun x => x) 0) by (rewrite ?map2_len; lia).
    rewrite (map2_nth (fun y z x : K => xor3_gate x y z) 0 0 (fun x => x)) by lia.
    rewrite (Ha i Hi), (Hb i Hi), (Hc i Hi). apply xor3_bo.
  Qed.
  Lemma reps_xor5 n a b c d e f1 f2 f3 f4 f5 : reps n a f1 -> reps n b f2 -> reps n c f3 -> reps n d f4 -> reps n e f5 ->
    reps n (xor5 a b c d e) (fun i => xorb (f1 i) (xorb (f2 i) (xorb (f3 i) (xorb (f4 i) (f5 i))))).
  Proof.
    intros Ha Hb Hc Hd He. unfold xor5.
    apply (reps_ext n _ _ _ (reps_xor n _ _ _ _ (reps_xor n _ _ _ _ (reps_xor3 n _ _ _ _ _ _ Ha Hb Hc) Hd) He)).
    intros i _. rewrite !xorb_assoc. reflexivity.
  Qed.

  Lemma nth_map_seq {A} (g : nat -> A) n i d : (i < n)%nat -> nth i (map g (seq 0 n)) d = g i.
  Proof.
    intro Hi. rewrite (nth_indep _ d (g 0%nat)) by (rewrite map_length, seq_length; exact Hi).
    rewrite map_nth, seq_nth by exact Hi. reflexivity.
  Qed.

  (** rotation by s *)
  Lemma reps_rot s a f : (0 < s < 64)%nat -> reps 64 a f ->
    reps 64 (step_rhopi s (64 - s) a) (fun z => f ((z + (64 - s)) mod 64)%nat).
  Proof.
    intros Hs [L H]. unfold step_rhopi, or_array, shr, shl.
    split; [rewrite map2_len, !map_length, !seq_length; reflexivity|]. intros z Hz.
    rewrite (map2_nth or_gate 0 0 0) by (rewrite map_length, seq_length; exact Hz).
    rewrite !nth_map_seq by exact Hz.
    destruct (Nat.ltb_spec z s) as [Hl|Hl].
    - replace (64 <=? z + (64 - s))%nat with false by (symmetry; apply Nat.leb_gt; lia).
      rewrite Nat.mod_small by lia. rewrite H by lia.
      transitivity (or_gate (bo (f (z + (64 - s))%nat)) (bo false)); [reflexivity|]. rewrite or_bo, orb_false_r. reflexivity.
    - replace (64 <=? z + (64 - s))%nat with true by (symmetry; apply Nat.leb_le; lia).
      replace ((z + (64 - s)) mod 64)%nat with (z - s)%nat.
      + rewrite H by lia.
        transitivity (or_gate (bo false) (bo (f (z - s)%nat))); [reflexivity|]. rewrite or_bo. reflexivity.
      + replace (z + (64 - s))%nat with (z - s + 1 * 64)%nat by lia. rewrite Nat.mod_add by lia.
        rewrite Nat.mod_small by lia. reflexivity.
  Qed.
  Lemma reps_d a b f g : reps 64 a f -> reps 64 b g ->
    reps 64 (d_tmpl 1 63 a b) (fun z => xorb (g z) (f ((z + 63) mod 64)%nat)).
  Proof.
    intros Ha Hb. unfold d_tmpl. apply reps_xor; [exact Hb|].
    exact (reps_rot 1 a f ltac:(lia) Ha).
  Qed.

  (** ** lanes *)
  Definition srep (l : list K) (A : kstate) : Prop :=
    reps 1600 l (fun i => A ((i / 64) mod 5)%nat (i / 320)%nat (i mod 64)%nat).

  Lemma nth_skipn {A} (l : list A) k i d : nth i (skipn k l) d = nth (k + i) l d.
  Proof. revert l i. induction k as [|k IH]; intros [|x l] i; cbn; [reflexivity..|destruct i; reflexivity|apply IH]. Qed.
  Lemma nth_firstn {A} (l : list A) k i d : (i < k)%nat -> nth i (firstn k l) d = nth i l d.
  Proof.
    revert l i. induction k as [|k IH]; intros [|x l] [|i] H; cbn; try lia; try reflexivity. apply IH. lia.
  Qed.

  Lemma reps_lane n l f k : reps n l f -> (64 * k + 64 <= n)%nat -> reps 64 (lane k l) (fun z => f (64 * k + z)%nat).
  Proof.
    intros [L H] Hk. unfold lane. split.
    - rewrite firstn_length, skipn_length. lia.
    - intros i Hi. rewrite nth_firstn by exact Hi. rewrite nth_skipn.
      replace (k * 64 + i)%nat with (64 * k + i)%nat by lia. apply H. lia.
  Qed.
  Lemma srep_lane l A k : srep l A -> (k < 25)%nat -> reps 64 (lane k l) (A (k mod 5)%nat (k / 5)%nat).
  Proof.
    intros H Hk. apply (reps_ext 64 _ _ _ (reps_lane 1600 l _ k H ltac:(lia))). intros z Hz. cbv beta.
    replace ((64 * k + z) mod 64)%nat with z
      by (rewrite (Nat.mul_comm 64), Nat.add_comm, Nat.mod_add, Nat.mod_small; lia).
    replace ((64 * k + z) / 64)%nat with k
      by (rewrite (Nat.mul_comm 64), Nat.div_add_l, Nat.div_small; lia).
    replace ((64 * k + z) / 320)%nat with (k / 5)%nat; [reflexivity|].
    change 320%nat with (64 * 5)%nat. rewrite <- Nat.div_div by lia.
    rewrite (Nat.mul_comm 64), Nat.div_add_l by lia. rewrite (Nat.div_small z) by lia. rewrite Nat.add_0_r. reflexivity.
  Qed.

  (** lanes put together *)
  Lemma reps_app n m a b f g : reps n a f -> reps m b g -> reps (n + m) (a ++ b) (fun i => if (i <? n)%nat then f i else g (i - n)%nat).
  Proof.
    intros [La Ha] [Lb Hb]. split; [rewrite app_length; lia|]. intros i Hi.
    destruct (Nat.ltb_spec i n) as [H|H].
    - rewrite app_nth1 by lia. apply Ha, H.
    - rewrite app_nth2 by lia. rewrite La. apply Hb. lia.
  Qed.
  Lemma reps_concat (ls : list (list K)) : forall (f : nat -> nat -> bool),
    (forall k, (k < length ls)%nat -> reps 64 (nth k ls []) (f k)) ->
    reps (64 * length ls) (concat ls) (fun i => f (i / 64)%nat (i mod 64)%nat).
  Proof.
    induction ls as [|a ls IH]; intros f H.
    - split; [reflexivity|]. intros i Hi. cbn in Hi. lia.
    - cbn [concat length]. replace (64 * S (length ls))%nat with (64 + 64 * length ls)%nat by lia.
      apply (reps_ext _ _ _ _ (reps_app 64 (64 * length ls) a (concat ls) (f 0%nat) _ (H 0%nat ltac:(cbn; lia))
        (IH (fun k => f (S k)) (fun k Hk => H (S k) ltac:(cbn; lia))))).
      intros i Hi. destruct (Nat.ltb_spec i 64) as [Hl|Hl].
      + rewrite Nat.div_small, Nat.mod_small by lia. reflexivity.
      + replace (i / 64)%nat with (S ((i - 64) / 64))%nat.
        * replace (i mod 64)%nat with ((i - 64) mod 64)%nat; [reflexivity|].
          replace i with (i - 64 + 1 * 64)%nat at 2 by lia. rewrite Nat.mod_add by lia. reflexivity.
        * replace i with (i - 64 + 1 * 64)%nat at 2 by lia. rewrite Nat.div_add by lia. lia.
  Qed.
  Lemma srep_concat (ls : list (list K)) (A : kstate) : length ls = 25%nat ->
    (forall k, (k < 25)%nat -> reps 64 (nth k ls []) (A (k mod 5)%nat (k / 5)%nat)) -> srep (concat ls) A.
  Proof.
    intros L H. unfold srep. replace 1600%nat with (64 * length ls)%nat by (rewrite L; reflexivity).
    apply (reps_ext _ _ _ _ (reps_concat ls (fun k z => A (k mod 5)%nat (k / 5)%nat z) ltac:(rewrite L; exact H))).
    intros i _. cbv beta. rewrite Nat.div_div by lia. reflexivity.
  Qed.

  (** every lane number *)
  Ltac lanes_n k n := lazymatch n with O => exfalso; lia | S ?m => destruct k as [|k]; [|lanes_n k m] end.
  Ltac lanes k := lanes_n k 25%nat.

  (** ** theta *)
  Lemma col_ok l A x : srep l A -> (x < 5)%nat ->
    reps 64 (xor5 (lane x l) (lane (5 + x) l) (lane (10 + x) l) (lane (15 + x) l) (lane (20 + x) l)) (kC A x).
  Proof.
    intros H Hx.
    pose proof (srep_lane l A x H ltac:(lia)) as H0. pose proof (srep_lane l A (5 + x) H ltac:(lia)) as H1.
    pose proof (srep_lane l A (10 + x) H ltac:(lia)) as H2. pose proof (srep_lane l A (15 + x) H ltac:(lia)) as H3.
    pose proof (srep_lane l A (20 + x) H ltac:(lia)) as H4.
    pose proof (reps_xor5 64 _ _ _ _ _ _ _ _ _ _ H0 H1 H2 H3 H4) as R.
    do 5 (destruct x as [|x]; [exact R|]). lia.
  Qed.

  Lemma theta_ok l A : srep l A -> srep (theta l) (k_theta A).
  Proof.
    intro H.
    assert (C0 := col_ok l A 0 H ltac:(lia)). assert (C1 := col_ok l A 1 H ltac:(lia)).
    assert (C2 := col_ok l A 2 H ltac:(lia)). assert (C3 := col_ok l A 3 H ltac:(lia)).
    assert (C4 := col_ok l A 4 H ltac:(lia)). cbn [Nat.add] in C0, C1, C2, C3, C4.
    assert (D0 := reps_d _ _ _ _ C1 C4). assert (D1 := reps_d _ _ _ _ C2 C0). assert (D2 := reps_d _ _ _ _ C3 C1).
    assert (D3 := reps_d _ _ _ _ C4 C2). assert (D4 := reps_d _ _ _ _ C0 C3).
    assert (P : forall k, (k < 25)%nat -> reps 64 (lane k l) (A (k mod 5)%nat (k / 5)%nat)) by (intros; apply srep_lane; assumption).
    unfold theta. cbv zeta.
    apply srep_concat; [reflexivity|]. intros k Hk.
    pose proof (P k Hk) as Pk. clear P C0 C1 C2 C3 C4.
    lanes k; cbn [nth]; (eapply reps_xor; [exact Pk|]); first [exact D0|exact D1|exact D2|exact D3|exact D4].
  Qed.

  (** ** rho and pi *)
  Lemma rhopi_ok l A : srep l A -> srep (rhopi l) (k_pi (k_rho A)).
  Proof.
    intro H. unfold rhopi. cbv zeta. apply srep_concat; [reflexivity|]. intros k Hk.
    assert (P : forall j s, (j < 25)%nat -> (0 < s < 64)%nat ->
      reps 64 (step_rhopi s (64 - s) (lane j l)) (fun z => A (j mod 5)%nat (j / 5)%nat ((z + (64 - s)) mod 64)%nat)).
    { intros j s Hj Hs. exact (reps_rot s _ _ Hs (srep_lane l A j H Hj)). }
    lanes k; cbn [nth].
    - apply (reps_ext 64 _ _ _ (srep_lane l A 0 H ltac:(lia))). intros z Hz. unfold k_pi, k_rho.
      change (rho_offset ((0 mod 5 + 3 * (0 / 5)) mod 5) (0 mod 5)) with 0%nat.
      change (64 - 0 mod 64)%nat with (1 * 64)%nat. rewrite Nat.mod_add, (Nat.mod_small z) by lia. reflexivity.
    - exact (P 6%nat 44%nat ltac:(lia) ltac:(lia)).
    - exact (P 12%nat 43%nat ltac:(lia) ltac:(lia)).
    - exact (P 18%nat 21%nat ltac:(lia) ltac:(lia)).
    - exact (P 24%nat 14%nat ltac:(lia) ltac:(lia)).
    - exact (P 3%nat 28%nat ltac:(lia) ltac:(lia)).
    - exact (P 9%nat 20%nat ltac:(lia) ltac:(lia)).
    - exact (P 10%nat 3%nat ltac:(lia) ltac:(lia)).
    - exact (P 16%nat 45%nat ltac:(lia) ltac:(lia)).
    - exact (P 22%nat 61%nat ltac:(lia) ltac:(lia)).
    - exact (P 1%nat 1%nat ltac:(lia) ltac:(lia)).
    - exact (P 7%nat 6%nat ltac:(lia) ltac:(lia)).
    - exact (P 13%nat 25%nat ltac:(lia) ltac:(lia)).
    - exact (P 19%nat 8%nat ltac:(lia) ltac:(lia)).
    - exact (P 20%nat 18%nat ltac:(lia) ltac:(lia)).
    - exact (P 4%nat 27%nat ltac:(lia) ltac:(lia)).
    - exact (P 5%nat 36%nat ltac:(lia) ltac:(lia)).
    - exact (P 11%nat 10%nat ltac:(lia) ltac:(lia)).
    - exact (P 17%nat 15%nat ltac:(lia) ltac:(lia)).
    - exact (P 23%nat 56%nat ltac:(lia) ltac:(lia)).
    - exact (P 2%nat 62%nat ltac:(lia) ltac:(lia)).
    - exact (P 8%nat 55%nat ltac:(lia) ltac:(lia)).
    - exact (P 14%nat 39%nat ltac:(lia) ltac:(lia)).
    - exact (P 15%nat 41%nat ltac:(lia) ltac:(lia)).
    - exact (P 21%nat 2%nat ltac:(lia) ltac:(lia)).
  Qed.

  (** ** chi *)
  Lemma chi_lane a b c f g h : reps 64 a f -> reps 64 b g -> reps 64 c h ->
    reps 64 (step_chi a b c) (fun z => xorb (f z) (andb (xorb (g z) true) (h z))).
  Proof. intros Ha Hb Hc. apply reps_xor; [exact Ha|]. apply reps_and; [apply reps_xor1; exact Hb|exact Hc]. Qed.
  Lemma chi_ok l A : srep l A -> srep (chi l) (k_chi A).
  Proof.
    intro H. unfold chi. cbv zeta. apply srep_concat; [reflexivity|]. intros k Hk.
    assert (P : forall i j m, (i < 25)%nat -> (j < 25)%nat -> (m < 25)%nat ->
      reps 64 (step_chi (lane i l) (lane j l) (lane m l))
        (fun z => xorb (A (i mod 5)%nat (i / 5)%nat z) (andb (xorb (A (j mod 5)%nat (j / 5)%nat z) true) (A (m mod 5)%nat (m / 5)%nat z)))).
    { intros i j m Hi Hj Hm. apply chi_lane; apply srep_lane; assumption. }
    lanes k; cbn [nth];
      match goal with |- reps 64 (step_chi (lane ?i l) (lane ?j l) (lane ?m l)) _ => exact (P i j m ltac:(lia) ltac:(lia) ltac:(lia)) end.
  Qed.

  (** ** iota *)
  Lemma rc_ok r z : (r < 24)%nat -> (z < 64)%nat -> Z.testbit (nth r rc_table 0%Z) (Z.of_nat z) = k_RC r z.
  Proof.
    intros Hr Hz.
    assert (B : forallb (fun r => forallb (fun z => eqb (Z.testbit (nth r rc_table 0%Z) (Z.of_nat z)) (k_RC r z)) (seq 0 64)) (seq 0 24) = true)
      by (vm_compute; reflexivity).
    rewrite forallb_forall in B. specialize (B r ltac:(apply in_seq; lia)).
    rewrite forallb_forall in B. specialize (B z ltac:(apply in_seq; lia)). apply eqb_prop. exact B.
  Qed.
  Lemma reps_const n v : reps n (const_bits n v) (fun i => Z.testbit v (Z.of_nat i)).
  Proof.
    unfold const_bits. split; [rewrite map_length, seq_length; reflexivity|]. intros i Hi.
    rewrite nth_map_seq by exact Hi. reflexivity.
  Qed.
  Lemma reps_skipn n l f k : reps n l f -> (k <= n)%nat -> reps (n - k) (skipn k l) (fun i => f (k + i)%nat).
  Proof.
    intros [L H] Hk. split; [rewrite skipn_length; lia|]. intros i Hi. rewrite nth_skipn. apply H. lia.
  Qed.
  Lemma reps_firstn n l f k : reps n l f -> (k <= n)%nat -> reps k (firstn k l) f.
  Proof.
    intros [L H] Hk. split; [rewrite firstn_length; lia|]. intros i Hi. rewrite nth_firstn by exact Hi. apply H. lia.
  Qed.
  Lemma iota_ok r l A : (r < 24)%nat -> srep l A -> srep (iota r l) (k_iota r A).
  Proof.
    intros Hr H. unfold iota.
    pose proof (reps_xor 64 _ _ _ _ (srep_lane l A 0 H ltac:(lia)) (reps_const 64 (nth r rc_table 0%Z))) as H0.
    pose proof (reps_skipn 1600 l _ 64 H ltac:(lia)) as H1.
    apply (reps_ext _ _ _ _ (reps_app 64 (1600 - 64) _ _ _ _ H0 H1)). intros i Hi. unfold k_iota.
    destruct (Nat.ltb_spec i 64) as [Hl|Hl].
    - rewrite rc_ok by assumption. rewrite !(Nat.div_small i) by lia. rewrite (Nat.mod_small i) by lia. reflexivity.
    - replace (64 + (i - 64))%nat with i by lia.
      replace (((i / 64) mod 5 =? 0)%nat && (i / 320 =? 0)%nat)%bool with false; [reflexivity|].
      symmetry. apply andb_false_iff. destruct (Nat.eqb_spec (i / 320) 0) as [E|E]; [left|right; reflexivity].
      apply Nat.eqb_neq. apply Nat.div_small_iff in E; [|lia].
      rewrite Nat.mod_small by (apply Nat.div_lt_upper_bound; lia).
      intro E0. apply Nat.div_small_iff in E0; lia.
  Qed.

  (** ** keccak-f *)
  Lemma round_ok r l A : (r < 24)%nat -> srep l A -> srep (keccakf_round r l) (k_round r A).
  Proof. intros Hr H. apply iota_ok; [exact Hr|]. apply chi_ok, rhopi_ok, theta_ok, H. Qed.
  Lemma rounds_ok n : (n <= 24)%nat -> forall l A, srep l A ->
    srep (fold_left (fun s r => keccakf_round r s) (seq 0 n) l) (k_rounds n A).
  Proof.
    induction n as [|n IH]; intros Hn l A H; [exact H|].
    rewrite seq_S, fold_left_app. cbn [fold_left k_rounds]. apply round_ok; [lia|]. apply IH; [lia|exact H].
  Qed.
  Theorem keccakf_ok l A : srep l A -> srep (keccakf l) (keccak_f A).
  Proof. exact (rounds_ok 24 ltac:(lia) l A). Qed.
End Kec.
