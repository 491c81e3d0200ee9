(** Proofs about Poseidon and Merkle trees. *)
From Coq Require Import ZArith List Bool Arith Lia Field Ring.
From Verif Require Import Base Primes Field Zq CircModel PosConst PosModel PosSpec.
Import ListNotations.
Local Open Scope fld_scope.

Section Generic.
  Context {K : Fld}.
  Add Field Kpos : (fth K).

  Lemma pow5 (x : K) : pow_vartime x 5 = quint x.
  Proof.
    unfold pow_vartime.
    replace (rev (seq 0 256)) with (rev (seq 3 253) ++ [2; 1; 0])%nat
      by (change (seq 0 256) with ([0; 1; 2] ++ seq 3 253)%nat; rewrite rev_app_distr; reflexivity).
    rewrite fold_left_app.
    replace (fold_left _ (rev (seq 3 253)) 1) with (1 : K).
    - cbn [fold_left]. change (Z.testbit 5 (Z.of_nat 2)) with true.
      change (Z.testbit 5 (Z.of_nat 1)) with false. change (Z.testbit 5 (Z.of_nat 0)) with true.
      cbv zeta iota. unfold quint. ring.
    - assert (G : forall l, Forall (fun i => 3 <= i)%nat l -> 1 =
        fold_left (fun (r : K) (i : nat) => let r0 := r * r in if Z.testbit 5 (Z.of_nat i) then r0 * x else r0) l 1).
      { induction l as [|i l IH]; intro F; [reflexivity|]. inversion F as [|? ? Hi Fl]; subst.
        cbn [fold_left]. replace (Z.testbit 5 (Z.of_nat i)) with false.
        - cbv zeta. replace ((1 : K) * 1) with (1 : K) by ring. apply IH, Fl.
        - symmetry. apply Z.bits_above_log2; [lia|]. change (Z.log2 5) with 2%Z. lia. }
      apply G, Forall_forall. intros i Hi. apply in_rev, in_seq in Hi. lia.
  Qed.

  (** the constants as functions *)
  Variables (keys : list K) (mds : list (list K)).
  Let C (i : nat) : K := nth i keys 0.
  Let M (i j : nat) : K := nth j (nth i mds []) 0.
  Hypothesis shape : exists r0 r1 r2, mds = [r0; r1; r2] /\
    (3 <= length r0)%nat /\ (3 <= length r1)%nat /\ (3 <= length r2)%nat.

  Definition l3 (v : vec3 K) : list K := let '(a, b, c) := v in [a; b; c].

  Lemma idx_nth {A} (l : list A) i d : (i < length l)%nat -> idx l i = Ok (nth i l d).
  Proof. intro Hi. unfold idx. rewrite (nth_error_nth' l d Hi). reflexivity. Qed.
  Lemma idx_out {A} (l : list A) i : (length l <= i)%nat -> idx l i = Panic.
  Proof. intro Hi. unfold idx. apply nth_error_None in Hi. rewrite Hi. reflexivity. Qed.

  (** ** Rust *)
  Section R.
    Variables nf np : nat.
    Let c := MkPC keys mds nf np.

    Lemma add_constants_ok (off r : nat) (v : vec3 K) : (off + 3 * r + 3 <= length keys)%nat ->
      add_constants c (MkPS (l3 v) (off + 3 * r)) =
      Ok (MkPS (l3 (ark (fun i => C (off + i)) r v)) (off + 3 * r)).
    Proof.
      intro L. destruct v as [[x y] z]. unfold add_constants, c. cbn [pc_keys ps_pos ps_state l3].
      cbn [length seq combine mapM fst snd].
      rewrite (idx_nth keys (0 + (off + 3 * r)) 0) by lia. cbn [bind].
      rewrite (idx_nth keys (1 + (off + 3 * r)) 0) by lia. cbn [bind].
      rewrite (idx_nth keys (2 + (off + 3 * r)) 0) by lia. cbn [bind ark l3]. unfold C.
      replace (0 + (off + 3 * r))%nat with (off + 3 * r)%nat by lia.
      replace (1 + (off + 3 * r))%nat with (off + (3 * r + 1))%nat by lia.
      replace (2 + (off + 3 * r))%nat with (off + (3 * r + 2))%nat by lia. reflexivity.
    Qed.
    Lemma add_constants_out (pos : nat) (a b d : K) : (length keys <= pos)%nat ->
      add_constants c (MkPS [a; b; d] pos) = Panic.
    Proof.
      intro L. unfold add_constants, c. cbn [pc_keys ps_pos ps_state length seq combine mapM fst snd].
      rewrite idx_out by lia. reflexivity.
    Qed.

    Lemma matrix_mul_ok (pos : nat) (v : vec3 K) :
      matrix_mul c (MkPS (l3 v) pos) = Ok (MkPS (l3 (mix M v)) pos).
    Proof.
      destruct shape as (r0 & r1 & r2 & E & L0 & L1 & L2).
      destruct v as [[x y] z]. unfold matrix_mul, c. cbn [pc_mds ps_pos ps_state l3].
      unfold M. rewrite E. cbn [rows_mul row_mul nth].
      assert (P : forall r : list K, (3 <= length r)%nat ->
        row_mul r 0 [x; y; z] 0 = Ok (nth 0 r 0 * x + nth 1 r 0 * y + nth 2 r 0 * z)).
      { intros r L. cbn [row_mul].
        rewrite (idx_nth r 0 0) by lia. cbn [bind]. rewrite (idx_nth r 1 0) by lia. cbn [bind].
        rewrite (idx_nth r 2 0) by lia. cbn [bind]. apply f_equal. ring. }
      cbn [row_mul] in P. rewrite (P r0 L0), (P r1 L1), (P r2 L2). reflexivity.
    Qed.

    Lemma full_round_ok (off r : nat) (v : vec3 K) : (off + 3 * r + 3 <= length keys)%nat ->
      full_round c (MkPS (l3 v) (off + 3 * r)) =
      Ok (MkPS (l3 (mix M (sub_all (ark (fun i => C (off + i)) r v)))) (off + 3 * S r)).
    Proof.
      intro L. unfold full_round. rewrite (add_constants_ok off r v L). cbn [bind ps_state ps_pos].
      destruct (ark (fun i => C (off + i)) r v) as [[x y] z]. cbn [l3 map]. rewrite !pow5.
      change [quint x; quint y; quint z] with (l3 (sub_all (x, y, z))).
      rewrite matrix_mul_ok. destruct (mix M (sub_all (x, y, z))) as [[x' y'] z'].
      cbn [bind ps_state ps_pos l3 length].
      replace (off + 3 * r + 3)%nat with (off + 3 * S r)%nat by lia. reflexivity.
    Qed.
    Lemma partial_round_ok (off r : nat) (v : vec3 K) : (off + 3 * r + 3 <= length keys)%nat ->
      partial_round c (MkPS (l3 v) (off + 3 * r)) =
      Ok (MkPS (l3 (mix M (sub_one (ark (fun i => C (off + i)) r v)))) (off + 3 * S r)).
    Proof.
      intro L. unfold partial_round. rewrite (add_constants_ok off r v L). cbn [bind ps_state ps_pos].
      destruct (ark (fun i => C (off + i)) r v) as [[x y] z]. cbn [l3 idx nth_error of_opt bind upd]. rewrite !pow5.
      change [quint x; y; z] with (l3 (sub_one (x, y, z))).
      rewrite matrix_mul_ok. destruct (mix M (sub_one (x, y, z))) as [[x' y'] z'].
      cbn [bind ps_state ps_pos l3 length].
      replace (off + 3 * r + 3)%nat with (off + 3 * S r)%nat by lia. reflexivity.
    Qed.

    (** k further rounds of one kind *)
    Lemma repeat_ok (off half rp : nat) (full : bool) (k : nat) : forall r (v : vec3 K),
      (off + 3 * (r + k) <= length keys)%nat ->
      (forall i, r <= i < r + k -> is_full half rp i = full)%nat ->
      forall v0, v = prounds (fun i => C (off + i)) M half rp r v0 ->
      repeat_res k (if full then full_round c else partial_round c) (MkPS (l3 v) (off + 3 * r)) =
      Ok (MkPS (l3 (prounds (fun i => C (off + i)) M half rp (r + k) v0)) (off + 3 * (r + k))).
    Proof.
      induction k as [|k IH]; intros r v L F v0 Ev.
      - rewrite Nat.add_0_r, <- Ev. reflexivity.
      - cbn [repeat_res].
        assert (R : (if full then full_round c else partial_round c) (MkPS (l3 v) (off + 3 * r)) =
          Ok (MkPS (l3 (prounds (fun i => C (off + i)) M half rp (S r) v0)) (off + 3 * S r))).
        { cbn [prounds]. unfold pround. rewrite (F r) by lia. rewrite <- Ev.
          destruct full; [apply full_round_ok|apply partial_round_ok]; lia. }
        rewrite R. cbn [bind].
        rewrite (IH (S r) _ ltac:(lia) ltac:(intros; apply F; lia) v0 eq_refl).
        replace (S r + k)%nat with (r + S k)%nat by lia. reflexivity.
    Qed.

    (** the hash started at any position of the constants *)
    Theorem pos_hash_ok (s : pstate K) (x y : K) :
      let half := Nat.div2 nf in
      (ps_pos s + 3 * (half + np + half) <= length keys)%nat ->
      exists s', ps_pos s' = (ps_pos s + 3 * (half + np + half))%nat /\
        pos_hash c s x y = Ok (poseidon (fun i => C (ps_pos s + i)) M half np x y, s').
    Proof.
      intros half L. unfold pos_hash. cbn [pc_full pc_partial c]. fold half.
      set (off := ps_pos s) in *. set (v0 := (from3, x, y) : vec3 K).
      change [from3; x; y] with (l3 v0).
      replace (MkPS (l3 v0) off) with (MkPS (l3 v0) (off + 3 * 0)) by (f_equal; lia).
      rewrite (repeat_ok off half np true half 0 v0 ltac:(lia)
        ltac:(intros i Hi; unfold is_full; replace (i <? half)%nat with true by (symmetry; apply Nat.ltb_lt; lia); reflexivity)
        v0 eq_refl).
      cbn [bind]. rewrite (repeat_ok off half np false np (0 + half) _ ltac:(lia)
        ltac:(intros i Hi; unfold is_full; replace (i <? half)%nat with false by (symmetry; apply Nat.ltb_ge; lia);
              replace (half + np <=? i)%nat with false by (symmetry; apply Nat.leb_gt; lia); reflexivity) v0 eq_refl).
      cbn [bind]. rewrite (repeat_ok off half np true half (0 + half + np) _ ltac:(lia)
        ltac:(intros i Hi; unfold is_full; replace (half + np <=? i)%nat with true by (symmetry; apply Nat.leb_le; lia);
              apply orb_true_r) v0 eq_refl).
      cbn [bind ps_state]. unfold poseidon, poseidon_perm.
      replace (0 + half + np + half)%nat with (half + np + half)%nat by lia.
      change (1 + 1 + 1, x, y) with v0.
      destruct (prounds _ _ half np (half + np + half) v0) as [[a b] d].
      cbn [l3 idx nth_error of_opt bind fst snd]. eexists. split; [|reflexivity]. reflexivity.
    Qed.

    (** no constants left: the first round panics *)
    Theorem pos_hash_out (s : pstate K) (x y : K) :
      (0 < Nat.div2 nf)%nat -> (length keys <= ps_pos s)%nat -> pos_hash c s x y = Panic.
    Proof.
      intros Hh L. unfold pos_hash. cbn [pc_full c]. destruct (Nat.div2 nf) as [|h]; [lia|].
      cbn [repeat_res]. unfold full_round at 1. rewrite add_constants_out by exact L. reflexivity.
    Qed.
  End R.

  (** ** circom *)
  Lemma cc_sbox_ok (x : K) : cc_sbox x = quint x.
  Proof. unfold cc_sbox, quint. cbv zeta. ring. Qed.
  Lemma cc_matrix_ok (v : vec3 K) : cc_matrix_mul mds (l3 v) = l3 (mix M v).
  Proof.
    destruct v as [[x y] z]. unfold cc_matrix_mul, M. cbn [map seq fold_left l3 nth mix].
    apply f_equal2; [cbv zeta; ring|apply f_equal2; [cbv zeta; ring|apply f_equal2; [cbv zeta; ring|reflexivity]]].
  Qed.
  Lemma cc_add_ok (r : nat) (v : vec3 K) : cc_add_const keys (r * 3) (l3 v) = l3 (ark C r v).
  Proof.
    destruct v as [[x y] z]. unfold cc_add_const. cbn [map seq l3 nth ark]. unfold C.
    replace (r * 3 + 0)%nat with (3 * r)%nat by lia. replace (r * 3)%nat with (3 * r)%nat by lia. reflexivity.
  Qed.
  Lemma cc_full_ok (r : nat) (v : vec3 K) : cc_full keys mds (r * 3) (l3 v) = l3 (mix M (sub_all (ark C r v))).
  Proof.
    unfold cc_full. rewrite cc_add_ok. destruct (ark C r v) as [[x y] z]. cbn [l3 map]. rewrite !cc_sbox_ok.
    change [quint x; quint y; quint z] with (l3 (sub_all (x, y, z))). apply cc_matrix_ok.
  Qed.
  Lemma cc_partial_ok (r : nat) (v : vec3 K) : cc_partial keys mds (r * 3) (l3 v) = l3 (mix M (sub_one (ark C r v))).
  Proof.
    unfold cc_partial. rewrite cc_add_ok. destruct (ark C r v) as [[x y] z].
    cbn [l3 map seq nth Nat.eqb]. cbv zeta. rewrite !cc_sbox_ok.
    change [quint x; y; z] with (l3 (sub_one (x, y, z))). apply cc_matrix_ok.
  Qed.
  Lemma cc_rounds_ok (half rp : nat) (full : bool) (k : nat) : forall r v0,
    (forall i, r <= i < r + k -> is_full half rp i = full)%nat ->
    cc_rounds (if full then cc_full keys mds else cc_partial keys mds) k (r, l3 (prounds C M half rp r v0)) =
    ((r + k)%nat, l3 (prounds C M half rp (r + k) v0)).
  Proof.
    induction k as [|k IH]; intros r v0 F.
    - cbn [cc_rounds]. rewrite Nat.add_0_r. reflexivity.
    - cbn [cc_rounds fst snd].
      assert (R : (if full then cc_full keys mds else cc_partial keys mds) (r * 3)%nat (l3 (prounds C M half rp r v0)) =
        l3 (prounds C M half rp (S r) v0)).
      { cbn [prounds]. unfold pround. rewrite (F r) by lia. destruct full; [apply cc_full_ok|apply cc_partial_ok]. }
      rewrite R, IH by (intros; apply F; lia). replace (S r + k)%nat with (r + S k)%nat by lia. reflexivity.
  Qed.
  Theorem cc_hash_ok (x y : K) : cc_hash keys mds x y = poseidon C M 4 56 x y.
  Proof.
    unfold cc_hash, poseidon, poseidon_perm. set (v0 := (1 + 1 + 1, x, y) : vec3 K).
    change [cst3; x; y] with (l3 (prounds C M 4 56 0 v0)).
    assert (F1 : forall i, (0 <= i < 0 + 4)%nat -> is_full 4 56 i = true).
    { intros i Hi. unfold is_full. replace (i <? 4)%nat with true by (symmetry; apply Nat.ltb_lt; lia). reflexivity. }
    assert (F2 : forall i, (0 + 4 <= i < 0 + 4 + 56)%nat -> is_full 4 56 i = false).
    { intros i Hi. unfold is_full. replace (i <? 4)%nat with false by (symmetry; apply Nat.ltb_ge; lia).
      replace (4 + 56 <=? i)%nat with false by (symmetry; apply Nat.leb_gt; lia). reflexivity. }
    assert (F3 : forall i, (0 + 4 + 56 <= i < 0 + 4 + 56 + 4)%nat -> is_full 4 56 i = true).
    { intros i Hi. unfold is_full. replace (4 + 56 <=? i)%nat with true by (symmetry; apply Nat.leb_le; lia).
      apply orb_true_r. }
    rewrite (cc_rounds_ok 4 56 true 4 0 v0 F1), (cc_rounds_ok 4 56 false 56 (0 + 4) v0 F2),
      (cc_rounds_ok 4 56 true 4 (0 + 4 + 56) v0 F3).
    cbn [snd]. change (0 + 4 + 56 + 4)%nat with (4 + 56 + 4)%nat.
    generalize (4 + 56 + 4)%nat. intro N. destruct (prounds C M 4 56 N v0) as [[a b] d]. reflexivity.
  Qed.
End Generic.

(** ** Merkle *)
Section Merk.
  Context {K : Fld}.
  Add Field Kmer : (fth K).
  Variable H : K -> K -> K.

  Lemma bit_cases (b : K) : b * (1 - b) = 0 -> exists c, b = bit_of c.
  Proof.
    intro E. apply fmul_eq_0 in E. destruct E as [E|E]; [exists false; exact E|exists true].
    apply (proj1 (fsub_eq_0 K _ _)) in E. symmetry. exact E.
  Qed.
  Lemma level_ok (h : K) (c : bool) (sib : K) t :
    merkle_levels H h ((bit_of c, sib) :: t) = merkle_levels H (if c then H sib h else H h sib) t.
  Proof.
    cbn [merkle_levels].
    replace (feqb (bit_of c * (1 - bit_of c)) 0) with true
      by (symmetry; apply feqb_true; destruct c; unfold bit_of; ring).
    apply (f_equal (fun z => merkle_levels H z t)).
    destruct c; unfold mux1, bit_of; apply f_equal2; ring.
  Qed.
  Lemma levels_path (bits : list bool) : forall (sibs : list K) h, length sibs = length bits ->
    merkle_levels H h (combine (map bit_of bits) sibs) = Some (path_value H h bits sibs).
  Proof.
    induction bits as [|c bits IH]; intros sibs h L; [reflexivity|].
    destruct sibs as [|s sibs]; [discriminate|]. cbn [map combine]. rewrite level_ok.
    cbn [path_value]. apply IH. injection L as L. exact L.
  Qed.
  Lemma levels_inv (path : list K) : forall (sibs : list K) h o, length sibs = length path ->
    merkle_levels H h (combine path sibs) = Some o -> exists bits, path = map bit_of bits.
  Proof.
    induction path as [|b path IH]; intros sibs h o L E; [exists []; reflexivity|].
    destruct sibs as [|s sibs]; [discriminate|]. cbn [combine merkle_levels] in E.
    destruct (feqb_spec K (b * (1 - b)) 0) as [B|B]; [|discriminate].
    destruct (bit_cases b B) as [c Ec]. injection L as L.
    destruct (IH sibs _ o L E) as [bits Eb]. exists (c :: bits). cbn [map]. rewrite <- Ec, <- Eb. reflexivity.
  Qed.
  Theorem merkle_iff (nl : nat) (leaf : K) (path sibs : list K) (o : K) :
    merkle H nl leaf path sibs = Some o <->
    exists bits, path = map bit_of bits /\ length bits = nl /\ length sibs = nl /\ o = path_value H leaf bits sibs.
  Proof.
    unfold merkle. split.
    - destruct (Nat.eqb_spec (length path) nl) as [L1|L1]; [|discriminate].
      destruct (Nat.eqb_spec (length sibs) nl) as [L2|L2]; [|discriminate]. cbn [andb]. intro E.
      assert (L : length sibs = length path) by congruence.
      destruct (levels_inv path sibs leaf o L E) as [bits Eb]. exists bits. subst path.
      rewrite map_length in L1, L. rewrite levels_path in E by exact L.
      repeat split; try assumption. congruence.
    - intros (bits & -> & L1 & L2 & ->). rewrite map_length, L1, L2, Nat.eqb_refl. cbn [andb].
      apply levels_path. congruence.
  Qed.
End Merk.

Section Tree.
  Context {K : Fld}.
  Variable H : K -> K -> K.
  Variable leaves : nat -> K.

  (** the path of honest siblings leads to the root *)
  Lemma path_node (bits : list bool) : forall h,
    path_value H (node H leaves h (index_of bits)) bits (siblings H leaves h bits) =
    node H leaves (h + length bits) 0.
  Proof.
    induction bits as [|b bits IH]; intro h; [cbn; rewrite Nat.add_0_r; reflexivity|].
    cbn [siblings path_value length]. replace (h + S (length bits))%nat with (S h + length bits)%nat by lia. rewrite <- (IH (S h)). f_equal.
    cbn [node]. destruct b; cbn [index_of Nat.b2n]; rewrite ?Nat.add_0_l.
    - replace (1 + 2 * index_of bits)%nat with (2 * index_of bits + 1)%nat by lia. reflexivity.
    - reflexivity.
  Qed.
  Lemma siblings_length (bits : list bool) : forall h, length (siblings H leaves h bits) = length bits.
  Proof. induction bits as [|b bits IH]; intro h; [reflexivity|]. cbn [siblings length]. rewrite IH. reflexivity. Qed.

  (** two paths with the same directions and the same end: same start or a collision *)
  Lemma path_inj (bits : list bool) : forall s1 s2 a b, length s1 = length bits -> length s2 = length bits ->
    path_value H a bits s1 = path_value H b bits s2 ->
    a = b \/ collide H (path_inputs H a bits s1) (path_inputs H b bits s2).
  Proof.
    induction bits as [|c bits IH]; intros s1 s2 a b L1 L2 E.
    - left. destruct s1, s2; try discriminate. exact E.
    - destruct s1 as [|x s1]; [discriminate|]. destruct s2 as [|y s2]; [discriminate|].
      cbn [path_value] in E. injection L1 as L1. injection L2 as L2.
      destruct (IH s1 s2 _ _ L1 L2 E) as [Eh|(u & v & I & Nu & Hu)].
      + destruct (feqb_spec K a b) as [Eab|Nab]; [left; exact Eab|right]. cbn [path_inputs]. cbv zeta. destruct c.
        * exists (x, a), (y, b). split; [left; reflexivity|]. split; [congruence|exact Eh].
        * exists (a, x), (b, y). split; [left; reflexivity|]. split; [congruence|exact Eh].
      + right. exists u, v. split; [|exact (conj Nu Hu)]. cbn [path_inputs]. cbv zeta. right. destruct c; exact I.
  Qed.

  Lemma index_bound (bits : list bool) : (index_of bits < 2 ^ length bits)%nat.
  Proof.
    induction bits as [|b bits IH]; [cbn; lia|]. cbn [index_of length]. rewrite Nat.pow_succ_r'.
    destruct b; cbn [Nat.b2n]; lia.
  Qed.
End Tree.

Lemma index_surj (d : nat) : forall i, (i < 2 ^ d)%nat -> exists bits, length bits = d /\ index_of bits = i.
Proof.
  induction d as [|d IH]; intros i Hi.
  - exists []. split; [reflexivity|]. cbn in Hi. cbn. lia.
  - rewrite Nat.pow_succ_r' in Hi. destruct (IH (Nat.div2 i)) as (bits & L & E).
    + rewrite Nat.div2_div. apply Nat.div_lt_upper_bound; lia.
    + exists (Nat.odd i :: bits). split; [cbn; lia|]. cbn [index_of]. rewrite E.
      pose proof (Nat.div2_odd i). lia.
Qed.
