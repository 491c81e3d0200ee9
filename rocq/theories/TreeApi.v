(** Proofs about the Merkle tree of the TypeScript library. *)
From Coq Require Import ZArith List Bool Arith Lia.
From Verif Require Import Base Primes Field Zq PosModel PosSpec PosProofs PosApi TsModel TsSpec WasmModel WasmApi TreeModel TreeSpec.
Import ListNotations.

Lemma child_some z l i : (i < length l)%nat -> child z l i = nth i l None.
Proof. intro L. unfold child. rewrite (proj2 (Nat.ltb_lt _ _) L). reflexivity. Qed.
Lemma child_none z l i : (length l <= i)%nat -> child z l i = Some z.
Proof. intro L. unfold child. rewrite (proj2 (Nat.ltb_ge _ _) L). reflexivity. Qed.

Lemma write_length l : forall i v, (i <= length l)%nat -> length (js_write l i v) = Nat.max (length l) (S i).
Proof.
  induction l as [|x l IH]; intros [|i] v L; cbn [js_write length] in *; try lia.
  rewrite IH by lia. lia.
Qed.
Lemma write_same l : forall i v, nth i (js_write l i v) None = Some v.
Proof.
  intros i. revert l. induction i as [|i IH]; intros [|x l] v; cbn [js_write nth]; try reflexivity; apply IH.
Qed.
Lemma write_other l : forall i j v, (j < length l)%nat -> j <> i -> nth j (js_write l i v) None = nth j l None.
Proof.
  induction l as [|x l IH]; intros [|i] [|j] v L N; cbn [js_write nth length] in *; try lia; try reflexivity.
  apply IH; lia.
Qed.

Lemma even_or_odd i : i = (2 * (i / 2))%nat /\ (i mod 2 = 0)%nat \/ i = (2 * (i / 2) + 1)%nat /\ (i mod 2 = 1)%nat.
Proof. pose proof (Nat.div_mod i 2 ltac:(lia)). pose proof (Nat.mod_upper_bound i 2 ltac:(lia)). lia. Qed.
Lemma start_of i : (i - i mod 2 = 2 * (i / 2))%nat.
Proof. destruct (even_or_odd i) as [[E M]|[E M]]; lia. Qed.

Section Gen.
  Context {K : Fld}.
  Variables (emb : K -> Z) (H : K -> K -> K) (hash : list Z -> res Z).
  Hypothesis emb_inj : forall a b, emb a = emb b -> a = b.
  Hypothesis hash_ok : forall a b, hash [emb a; emb b] = Ok (emb (H a b)).
  Variable k0 : K.
  Hypothesis k0_ok : emb k0 = 0%Z.

  Lemma hash_elts_ok a b : hash_elts hash [Some (emb a); Some (emb b)] = Ok (emb (H a b)).
  Proof. unfold hash_elts. cbn [defined]. apply hash_ok. Qed.

  Definition zero (h : nat) : K := node H (fun _ => k0) h 0.
  Lemma node_const h : forall i, node H (fun _ => k0) h i = zero h.
  Proof. unfold zero. induction h as [|h IH]; intro i; [reflexivity|]. cbn [node]. rewrite !(IH (2 * _)%nat), !(IH (2 * _ + 1)%nat). reflexivity. Qed.
  Lemma zero_S h : zero (S h) = H (zero h) (zero h).
  Proof. unfold zero at 1. cbn [node]. rewrite !node_const. reflexivity. Qed.

  (** c elements of the level are stored; the others are empty subtrees *)
  Definition pads (f : nat -> K) (h c : nat) : Prop := forall j, (c <= j)%nat -> node H f h j = zero h.
  Definition level_is (f : nat -> K) (h c : nat) (l : list elt) : Prop :=
    length l = c /\ forall j, (j < c)%nat -> nth j l None = Some (emb (node H f h j)).
  Fixpoint levels_are (f : nat -> K) (h c : nat) (zs : list Z) (ls : list (list elt)) : Prop :=
    match zs, ls with
    | [], [] => True
    | z :: zs', l :: ls' => z = emb (zero h) /\ level_is f h c l /\ levels_are f (S h) ((c + 1) / 2) zs' ls'
    | _, _ => False
    end.

  Lemma levels_length f zs : forall h c ls, levels_are f h c zs ls -> length zs = length ls.
  Proof.
    induction zs as [|z zs IH]; intros h c [|l ls] L; cbn [levels_are] in L; [reflexivity|destruct L|destruct L|].
    cbn [length]. f_equal. exact (IH _ _ _ (proj2 (proj2 L))).
  Qed.
  Lemma half_up c : (2 * ((c + 1) / 2) >= c)%nat.
  Proof. pose proof (Nat.div_mod (c + 1) 2 ltac:(lia)). pose proof (Nat.mod_upper_bound (c + 1) 2 ltac:(lia)). lia. Qed.
  Lemma pads_S f h c : pads f h c -> pads f (S h) ((c + 1) / 2).
  Proof.
    intros P j L. pose proof (half_up c). cbn [node]. rewrite !P by lia. rewrite zero_S. reflexivity.
  Qed.
  Lemma child_is f h c l i : pads f h c -> level_is f h c l -> child (emb (zero h)) l i = Some (emb (node H f h i)).
  Proof.
    intros P [L E]. destruct (Nat.lt_ge_cases i c) as [A|A].
    - rewrite child_some by lia. apply E. exact A.
    - rewrite child_none by lia. rewrite P by exact A. reflexivity.
  Qed.

  Lemma zero_chain_ok d : forall h, exists zs,
    zero_chain hash d (emb (zero h)) = Ok (zs, emb (zero (h + d))) /\ forall f, pads f h 0 -> levels_are f h 0 zs (repeat [] d).
  Proof.
    induction d as [|d IH]; intro h; cbn [zero_chain repeat].
    - exists []. rewrite Nat.add_0_r. split; [reflexivity|]. intros; exact I.
    - rewrite hash_ok. cbn [bind]. rewrite <- zero_S. destruct (IH (S h)) as (zs & E & L). rewrite E. cbn [bind fst snd].
      exists (emb (zero h) :: zs). rewrite Nat.add_succ_r. split; [reflexivity|]. intros f P. cbn [levels_are].
      split; [reflexivity|]. split; [split; [reflexivity|intros j Hj; lia]|]. change ((0 + 1) / 2)%nat with 0%nat. apply L.
      change 0%nat with ((0 + 1) / 2)%nat. apply pads_S. exact P.
  Qed.

  Lemma write_is f g h c l i : (i <= c)%nat -> level_is f h c l ->
    (forall j, j <> i -> node H g h j = node H f h j) ->
    level_is g h (Nat.max c (S i)) (js_write l i (emb (node H g h i))).
  Proof.
    intros Hi [L E] D. split; [rewrite write_length by lia; lia|]. intros j Hj.
    destruct (Nat.eq_dec j i) as [->|N]; [apply write_same|]. rewrite write_other by lia. rewrite E by lia. rewrite D by exact N. reflexivity.
  Qed.

  Lemma climb_ok zs : forall ls f g h c i,
    levels_are f h c zs ls -> pads f h c -> (i <= c)%nat -> (forall j, j <> i -> node H g h j = node H f h j) ->
    exists ls', climb hash zs ls i (emb (node H g h i)) = (ls', Ok (emb (node H g (h + length zs) (i / 2 ^ length zs)))) /\
      levels_are g h (Nat.max c (S i)) zs ls'.
  Proof.
    induction zs as [|z zs IH]; intros ls f g h c i Ll P Hi D; destruct ls as [|l ls]; try (exfalso; exact Ll).
    - exists []. cbn [climb length]. rewrite Nat.add_0_r, Nat.pow_0_r, Nat.div_1_r. split; [reflexivity|exact I].
    - cbn [levels_are] in Ll. destruct Ll as (-> & Ll & Rl). cbn [climb].
      pose proof (write_is f g h c l i Hi Ll D) as W.
      assert (Pg : pads g h (Nat.max c (S i))) by (intros j Hj; rewrite D by lia; apply P; lia).
      rewrite start_of. cbn [seq map].
      rewrite !(child_is g h _ _ _ Pg W), hash_elts_ok.
      replace (S (2 * (i / 2)))%nat with (2 * (i / 2) + 1)%nat by lia.
      change (H (node H g h (2 * (i / 2))) (node H g h (2 * (i / 2) + 1))) with (node H g (S h) (i / 2)).
      pose proof (half_up c) as U. destruct (even_or_odd i) as [Ei|Ei].
      all: destruct (IH ls f g (S h) ((c + 1) / 2)%nat (i / 2)%nat Rl (pads_S f h c P)) as (ls' & E & L);
        [lia|intros j Hj; cbn [node]; rewrite !D by lia; reflexivity|].
      all: rewrite E; eexists; split;
        [cbn [length]; rewrite Nat.add_succ_r, Nat.pow_succ_r', Nat.div_div by (try apply Nat.pow_nonzero; lia); reflexivity|].
      all: cbn [levels_are]; split; [reflexivity|]; split; [exact W|].
      all: replace ((Nat.max c (S i) + 1) / 2)%nat with (Nat.max ((c + 1) / 2) (S (i / 2))); [exact L|].
      all: pose proof (Nat.div_mod (c + 1) 2 ltac:(lia)); pose proof (Nat.mod_upper_bound (c + 1) 2 ltac:(lia));
           pose proof (Nat.div_mod (Nat.max c (S i) + 1) 2 ltac:(lia)); pose proof (Nat.mod_upper_bound (Nat.max c (S i) + 1) 2 ltac:(lia)); lia.
  Qed.

  (** the path of an index *)
  Fixpoint digits (d i : nat) : list bool := match d with O => [] | S d' => Nat.odd i :: digits d' (i / 2) end.
  Lemma digits_length d : forall i, length (digits d i) = d.
  Proof. induction d as [|d IH]; intro i; cbn [digits length]; [reflexivity|]. rewrite IH. reflexivity. Qed.
  Lemma odd_mod i : Nat.b2n (Nat.odd i) = (i mod 2)%nat.
  Proof. rewrite <- Nat.bit0_odd, Nat.bit0_mod. reflexivity. Qed.
  Lemma digits_index d : forall i, (i < 2 ^ d)%nat -> index_of (digits d i) = i.
  Proof.
    induction d as [|d IH]; intros i L; cbn [digits index_of]; [cbn in L; lia|].
    rewrite Nat.pow_succ_r' in L. rewrite IH by (apply Nat.div_lt_upper_bound; lia). rewrite odd_mod. destruct (even_or_odd i); lia.
  Qed.

  Lemma proof_ok zs : forall ls f h c i, levels_are f h c zs ls -> pads f h c -> (i < 2 ^ length zs)%nat ->
    map fst (proof_levels zs ls i) = map (fun x => [Some (emb x)]) (siblings H f h (digits (length zs) i)) /\
    map snd (proof_levels zs ls i) = map Z.b2z (digits (length zs) i).
  Proof.
    induction zs as [|z zs IH]; intros ls f h c i Ll P Hi; destruct ls as [|l ls]; try (exfalso; exact Ll); [split; reflexivity|].
    cbn [levels_are] in Ll. destruct Ll as (-> & Ll & Rl). cbn [length] in Hi. rewrite Nat.pow_succ_r' in Hi.
    assert (Hi2 : (i / 2 < 2 ^ length zs)%nat) by (apply Nat.div_lt_upper_bound; lia).
    destruct (IH ls f (S h) _ (i / 2)%nat Rl (pads_S f h c P) Hi2) as [E1 E2].
    cbn [proof_levels length digits siblings map fst snd]. rewrite E1, E2. rewrite digits_index by exact Hi2.
    rewrite start_of. cbn [seq filter]. replace (Nat.odd i) with (Nat.eqb (i mod 2) 1) by (rewrite <- odd_mod; destruct (Nat.odd i); reflexivity).
    destruct (even_or_odd i) as [[Ei M]|[Ei M]]; rewrite M.
    - replace (2 * (i / 2) =? i)%nat with true by (symmetry; apply Nat.eqb_eq; lia).
      replace (S (2 * (i / 2)) =? i)%nat with false by (symmetry; apply Nat.eqb_neq; lia). cbn [negb map].
      rewrite (child_is f h c l _ P Ll). replace (S (2 * (i / 2)))%nat with (2 * (i / 2) + 1)%nat by lia. split; reflexivity.
    - replace (2 * (i / 2) =? i)%nat with false by (symmetry; apply Nat.eqb_neq; lia).
      replace (S (2 * (i / 2)) =? i)%nat with true by (symmetry; apply Nat.eqb_eq; lia). cbn [negb map].
      rewrite (child_is f h c l _ P Ll). split; reflexivity.
  Qed.

  Lemma splice_one s (x : Z) a : js_splice [s] x a = if (0 <? x)%Z then [s; a] else [a; s].
  Proof.
    unfold js_splice. cbn [length]. change (Z.of_nat 1) with 1%Z.
    destruct (Z.ltb_spec x 0) as [A|A]; destruct (Z.ltb_spec 0 x) as [B|B]; try lia.
    - replace (Z.to_nat (Z.max (1 + x) 0)) with 0%nat by lia. reflexivity.
    - replace (Z.to_nat (Z.min x 1)) with 1%nat by lia. reflexivity.
    - replace (Z.to_nat (Z.min x 1)) with 0%nat by lia. reflexivity.
  Qed.
  Lemma splice_length l x a : length (js_splice l x a) = S (length l).
  Proof.
    unfold js_splice. cbv zeta. set (s := Z.to_nat _). rewrite <- (firstn_skipn s l) at 3. rewrite !app_length. cbn [length]. lia.
  Qed.

  Notation heads := directions.
  Lemma heads_length n : forall path, length (heads n path) = n.
  Proof. induction n as [|n IH]; intro path; cbn [directions length]; [reflexivity|]. rewrite IH. reflexivity. Qed.
  Lemma heads_map path : heads (length path) path = map is_right path.
  Proof. induction path as [|x path IH]; [reflexivity|]. cbn [length directions hd tl map]. rewrite IH. reflexivity. Qed.
  Lemma heads_bits bits : heads (length bits) (map Z.b2z bits) = bits.
  Proof. rewrite <- (map_length Z.b2z bits), heads_map, map_map. rewrite <- (map_id bits) at 2. apply map_ext. intros [|]; reflexivity. Qed.

  Lemma verify_ok sibs : forall path a,
    verify_levels hash (map (fun x => [Some (emb x)]) sibs) path (emb a) = Ok (emb (path_value H a (heads (length sibs) path) sibs)).
  Proof.
    induction sibs as [|s sibs IH]; intros path a; cbn [map verify_levels length directions path_value]; [reflexivity|].
    rewrite splice_one. unfold is_right. destruct (0 <? hd 0 path)%Z; rewrite hash_elts_ok; cbn [bind]; apply IH.
  Qed.
End Gen.

Local Open Scope Z_scope.
Notation ph := poseidon_hash.


Lemma fp_zval (a : Fp) : fp (zval a) = a. Proof. exact (zof_zval p prime_p a). Qed.
Lemma zval_small x : 0 <= x < p -> zval (fp x) = x.
Proof. intro R. change (x mod p = x). apply Z.mod_small. exact R. Qed.
Lemma ph_ok (a b : Fp) : ph [zval a; zval b] = Ok (zval (pos2 a b)).
Proof.
  pose proof (zval_range p a). pose proof (zval_range p b).
  assert (p < 2 ^ 256) by reflexivity.
  rewrite hash_two by (unfold u256; lia). rewrite (proj2 (Z.ltb_lt (zval a) p)), (proj2 (Z.ltb_lt (zval b) p)) by lia. cbn [andb]. rewrite !fp_zval. reflexivity.
Qed.
Lemma zval_zero : zval (fp 0) = 0. Proof. apply zval_small. split; [lia|reflexivity]. Qed.
Lemma zval_inj (a b : Fp) : zval a = zval b -> a = b.
Proof. intro E. rewrite <- (fp_zval a), <- (fp_zval b), E. reflexivity. Qed.

Definition in_fp (x : Z) : Prop := 0 <= x < p.
Definition rep (depth : nat) (t : tree) (l : list Z) : Prop :=
  (1 <= depth)%nat /\ length (t_zeroes t) = depth /\ length (t_nodes t) = depth /\ Forall in_fp l /\
  Z.of_nat (length l) <= 2 ^ Z.of_nat depth /\
  levels_are (K:=Fp) zval pos2 (fp 0) (padded l) 0 (length l) (t_zeroes t) (t_nodes t) /\
  t_root t = zval (merkle_root pos2 depth l).

Lemma padded_out l j : (length l <= j)%nat -> padded l j = fp 0.
Proof. intro L. unfold padded. rewrite nth_overflow by exact L. reflexivity. Qed.
Lemma padded_pads l : pads pos2 (fp 0) (padded l) 0 (length l).
Proof. intros j L. cbn [node]. apply padded_out. exact L. Qed.
Lemma node_nil h : forall i, node pos2 (padded []) h i = zero pos2 (fp 0) h.
Proof. induction h as [|h IH]; intro i; [destruct i; reflexivity|]. cbn [node]. rewrite !IH, zero_S. reflexivity. Qed.

Lemma new_ok depth : (1 <= depth <= 32)%nat -> exists t, tree_new ph depth = Ok t /\ rep depth t [].
Proof.
  intro R. unfold tree_new. rewrite (proj2 (Nat.ltb_ge _ _)) by lia. rewrite (proj2 (Nat.ltb_ge 32 _)) by lia. cbn [orb].
  destruct (zero_chain_ok (K:=Fp) zval pos2 ph ph_ok (fp 0) depth 0) as (zs & E & L).
  change (zval (zero pos2 (fp 0) 0)) with (zval (fp 0)) in E. rewrite zval_zero in E. rewrite E. cbn [bind fst snd].
  eexists. split; [reflexivity|]. specialize (L (padded []) (padded_pads [])).
  assert (Lz : length zs = depth).
  { rewrite <- (repeat_length (A:=list elt) [] depth). exact (levels_length _ _ _ _ _ _ _ _ L). }
  unfold rep. cbn [t_zeroes t_nodes t_root length]. rewrite repeat_length. split; [lia|]. split; [exact Lz|]. split; [reflexivity|]. split; [constructor|].
  split; [apply Z.pow_nonneg; lia|]. split; [exact L|]. unfold merkle_root. rewrite node_nil. reflexivity.
Qed.
Lemma new_bad depth : ~ (1 <= depth <= 32)%nat -> tree_new ph depth = Panic.
Proof.
  intro R. unfold tree_new. destruct (Nat.ltb_spec depth 1); [reflexivity|]. destruct (Nat.ltb_spec 32 depth); [reflexivity|]. lia.
Qed.

Lemma rep_level0 depth t l : rep depth t l -> tree_level0 t = map Some l.
Proof.
  intros (D & Lz & Ln & F & _ & Ll & _). unfold tree_level0. destruct (t_zeroes t) as [|z zs]; [cbn in Lz; lia|].
  destruct (t_nodes t) as [|a ls]; [cbn in Ln; lia|]. cbn [levels_are] in Ll. destruct Ll as (_ & [La E] & _). cbn [nth].
  apply (nth_ext _ _ None None); [rewrite map_length; exact La|]. intros j Hj0. assert (Hj : (j < length l)%nat) by (rewrite <- La; exact Hj0). rewrite E by exact Hj. cbn [node].
  rewrite (nth_indep _ None (Some 0)) by (rewrite map_length; exact Hj). rewrite map_nth. f_equal. unfold padded. apply zval_small.
  rewrite Forall_forall in F. apply F. apply nth_In. exact Hj.
Qed.
Lemma rep_zero depth t l : rep depth t l -> nth 0 (t_zeroes t) 0 = 0.
Proof.
  intros (D & Lz & Ln & F & _ & Ll & _). destruct (t_zeroes t) as [|z zs]; [reflexivity|].
  destruct (t_nodes t) as [|a ls]; [cbn in Ln; lia|]. cbn [levels_are] in Ll. destruct Ll as (-> & _). exact zval_zero.
Qed.

Lemma pow_nat d : 2 ^ Z.of_nat d = Z.of_nat (2 ^ d).
Proof. rewrite Nat2Z.inj_pow. reflexivity. Qed.

(** writing leaf number i *)
Lemma write_ok depth t l i x l' : rep depth t l -> (i <= length l)%nat -> (i < 2 ^ depth)%nat ->
  length l' = Nat.max (length l) (S i) -> nth i l' 0 = x -> (forall j, j <> i -> nth j l' 0 = nth j l 0) -> Forall in_fp l' ->
  exists t', write_leaf ph t i x = (t', Ok tt) /\ rep depth t' l'.
Proof.
  intros (D & Lz & Ln & F & B & Ll & Rt) Hi Hd Ll' Ex Eo F'. unfold write_leaf.
  assert (Hx : in_fp x). { rewrite <- Ex. rewrite Forall_forall in F'. apply F'. apply nth_In. lia. }
  destruct (climb_ok (K:=Fp) zval pos2 ph ph_ok (fp 0) (t_zeroes t) (t_nodes t) (padded l) (padded l') 0 (length l) i Ll (padded_pads l) Hi) as (ls' & E & L').
  { intros j Hj. cbn [node]. unfold padded. rewrite Eo by exact Hj. reflexivity. }
  change (node pos2 (padded l') 0 i) with (fp (nth i l' 0)) in E. rewrite Ex, zval_small in E by exact Hx. rewrite E.
  eexists. split; [reflexivity|]. unfold rep. cbn [t_zeroes t_nodes t_root]. rewrite <- Ll' in L'.
  split; [exact D|]. split; [exact Lz|]. split.
  { rewrite <- Lz. symmetry. exact (levels_length _ _ _ _ _ _ _ _ L'). }
  split; [exact F'|]. split; [rewrite pow_nat in *; lia|]. split; [exact L'|].
  rewrite Lz. rewrite Nat.div_small by exact Hd. reflexivity.
Qed.

Lemma insert_ok depth t l x : rep depth t l -> in_fp x ->
  if Z.of_nat (length l) <? 2 ^ Z.of_nat depth then exists t', tree_insert ph t x = (t', Ok tt) /\ rep depth t' (l ++ [x])
  else tree_insert ph t x = (t, Panic).
Proof.
  intros R Hx. unfold tree_insert. rewrite (rep_level0 depth t l R), map_length. unfold tree_depth.
  pose proof R as (D & Lz & Ln & F & B & Ll & Rt). rewrite Ln.
  destruct (Z.ltb_spec (Z.of_nat (length l)) (2 ^ Z.of_nat depth)) as [A|A].
  - rewrite Z.geb_leb, (proj2 (Z.leb_gt _ _)) by exact A. rewrite pow_nat in A.
    apply (write_ok depth t l); [exact R|lia|lia|rewrite app_length; cbn [length]; lia| | |].
    + rewrite app_nth2, Nat.sub_diag by lia. reflexivity.
    + intros j Hj. destruct (Nat.lt_ge_cases j (length l)); [apply app_nth1; assumption|].
      rewrite !nth_overflow; [reflexivity|lia|rewrite app_length; cbn [length]; lia].
    + apply Forall_app. split; [exact F|]. constructor; [exact Hx|constructor].
  - rewrite Z.geb_leb, (proj2 (Z.leb_le _ _)) by exact A. reflexivity.
Qed.
Lemma replace_length {A} (l : list A) i x : (i < length l)%nat -> length (replace_nth l i x) = length l.
Proof. intro L. unfold replace_nth. rewrite app_length, firstn_length. cbn [length]. rewrite skipn_length. lia. Qed.
Lemma replace_same {A} (l : list A) i x d : (i < length l)%nat -> nth i (replace_nth l i x) d = x.
Proof. intro L. unfold replace_nth. rewrite app_nth2; rewrite firstn_length_le by lia; [|lia]. rewrite Nat.sub_diag. reflexivity. Qed.
Lemma replace_other {A} (l : list A) x d : forall i j, (i < length l)%nat -> j <> i -> nth j (replace_nth l i x) d = nth j l d.
Proof.
  induction l as [|y l IH]; intros [|i] [|j] L N; cbn [length] in L; try lia; try reflexivity.
  unfold replace_nth in *. cbn [firstn app nth]. change (skipn (S (S i)) (y :: l)) with (skipn (S i) l). apply IH; lia.
Qed.
Lemma delete_ok depth t l i : rep depth t l ->
  if (0 <=? i) && (i <? Z.of_nat (length l)) then exists t', tree_delete ph t i = (t', Ok tt) /\ rep depth t' (replace_nth l (Z.to_nat i) 0)
  else tree_delete ph t i = (t, Panic).
Proof.
  intros R. unfold tree_delete. rewrite (rep_level0 depth t l R), map_length, (rep_zero depth t l R).
  pose proof R as (D & Lz & Ln & F & B & Ll & Rt).
  rewrite Z.geb_leb. destruct (Z.leb_spec 0 i) as [A|A].
  - rewrite (proj2 (Z.ltb_ge i 0)) by exact A. destruct (Z.ltb_spec i (Z.of_nat (length l))) as [C|C].
    + rewrite (proj2 (Z.leb_gt _ _)) by exact C. cbn [andb orb]. rewrite pow_nat in B.
      apply (write_ok depth t l); [exact R|lia|lia|rewrite replace_length; lia|apply replace_same; lia|intros j Hj; apply replace_other; lia|].
      unfold replace_nth. apply Forall_app. assert (F2 := F). rewrite <- (firstn_skipn (Z.to_nat i) l) in F. rewrite <- (firstn_skipn (S (Z.to_nat i)) l) in F2.
      split; [exact (proj1 (proj1 (Forall_app _ _ _) F))|]. constructor; [split; [lia|reflexivity]|exact (proj2 (proj1 (Forall_app _ _ _) F2))].
    + rewrite (proj2 (Z.leb_le _ _)) by exact C. reflexivity.
  - rewrite (proj2 (Z.ltb_lt i 0)) by exact A. reflexivity.
Qed.

Lemma do_ok depth t l c : rep depth t l -> leaf_ok c ->
  match call_effect depth l c with
  | Some l' => exists t', tree_do ph t c = (t', Ok tt) /\ rep depth t' l'
  | None => tree_do ph t c = (t, Panic)
  end.
Proof.
  intros R Ok. destruct c as [x|i]; cbn [call_effect tree_do].
  - pose proof (insert_ok depth t l x R Ok) as I. destruct (_ <? _); exact I.
  - pose proof (delete_ok depth t l i R) as I. destruct (_ && _); exact I.
Qed.
Lemma run_ok depth calls : forall t l, rep depth t l -> Forall leaf_ok calls ->
  snd (tree_run ph t calls) = snd (calls_effect depth l calls) /\ rep depth (fst (tree_run ph t calls)) (fst (calls_effect depth l calls)).
Proof.
  induction calls as [|c calls IH]; intros t l R F; cbn [tree_run calls_effect fst snd]; [split; [reflexivity|exact R]|].
  inversion F as [|? ? Fc Fr]; subst. pose proof (do_ok depth t l c R Fc) as D. destruct (call_effect depth l c) as [l1|].
  - destruct D as (t' & E & R'). rewrite E. destruct (IH t' l1 R' Fr) as [I1 I2].
    destruct (tree_run ph t' calls), (calls_effect depth l1 calls). cbn [fst snd] in *. split; [congruence|exact I2].
  - rewrite D. destruct (IH t l R Fr) as [I1 I2].
    destruct (tree_run ph t calls), (calls_effect depth l calls). cbn [fst snd] in *. split; [congruence|exact I2].
Qed.

(** ** The theorems *)
Theorem history depth calls : (1 <= depth <= 32)%nat -> Forall leaf_ok calls ->
  exists t0, tree_new ph depth = Ok t0 /\
    let (t, results) := tree_run ph t0 calls in
    let (l, expected) := calls_effect depth [] calls in
    results = expected /\ tree_leaves t = map Some l /\ tree_root t = zval (merkle_root pos2 depth l).
Proof.
  intros D F. destruct (new_ok depth D) as (t0 & E & R). exists t0. split; [exact E|]. destruct (run_ok depth calls t0 [] R F) as [E1 R1].
  destruct (tree_run ph t0 calls), (calls_effect depth [] calls). cbn [fst snd] in *. split; [exact E1|].
  split; [exact (rep_level0 _ _ _ R1)|]. exact (proj2 (proj2 (proj2 (proj2 (proj2 (proj2 R1)))))).
Qed.
Lemma built_rep depth t l : built ph depth t l -> rep depth t l.
Proof.
  intros (t0 & calls & E & F & -> & ->). destruct (Nat.lt_ge_cases depth 1) as [A|A]; [rewrite new_bad in E by lia; discriminate|].
  destruct (Nat.lt_ge_cases 32 depth) as [B|B]; [rewrite new_bad in E by lia; discriminate|].
  destruct (new_ok depth (conj A B)) as (t1 & E1 & R). rewrite E in E1. injection E1 as <-. exact (proj2 (run_ok depth calls t0 [] R F)).
Qed.
Theorem depths depth : (exists t, tree_new ph depth = Ok t) <-> (1 <= depth <= 32)%nat.
Proof.
  split.
  - intros [t E]. destruct (Nat.lt_ge_cases depth 1) as [A|A]; [rewrite new_bad in E by lia; discriminate|].
    destruct (Nat.lt_ge_cases 32 depth) as [B|B]; [rewrite new_bad in E by lia; discriminate|]. lia.
  - intro R. destruct (new_ok depth R) as (t & E & _). exists t. exact E.
Qed.
Theorem failed_call depth t l c : built ph depth t l -> leaf_ok c -> call_effect depth l c = None -> tree_do ph t c = (t, Panic).
Proof. intros B O E. pose proof (do_ok depth t l c (built_rep _ _ _ B) O) as D. rewrite E in D. exact D. Qed.

Lemma leaf_node l i : fp (nth i l 0) = node pos2 (padded l) 0 i. Proof. reflexivity. Qed.
Lemma b2z_fp bits : map fp (map Z.b2z bits) = map bit_of bits.
Proof. rewrite map_map. apply map_ext. intros [|]; reflexivity. Qed.

Theorem created depth t l i : built ph depth t l ->
  if (0 <=? i) && (i <? Z.of_nat (length l)) then
    exists proof bits sibs, tree_createProof t i = Ok proof /\
      mp_root proof = tree_root t /\ mp_siblings proof = singles sibs /\ mp_path proof = map Z.b2z bits /\
      Z.of_nat (index_of bits) = i /\ length bits = depth /\ length sibs = depth /\
      (forall t', tree_verifyProof ph t' proof (nth (Z.to_nat i) l 0) = Ok true) /\
      merkle cc_poseidon depth (fp (nth (Z.to_nat i) l 0)) (map fp (mp_path proof)) sibs = Some (fp (mp_root proof))
  else tree_createProof t i = Panic.
Proof.
  intro B. apply built_rep in B. unfold tree_createProof. rewrite (rep_level0 depth t l B), map_length.
  pose proof B as (D & Lz & Ln & F & Bd & Ll & Rt). rewrite Z.geb_leb. destruct (Z.leb_spec 0 i) as [A|A].
  2:{ rewrite (proj2 (Z.ltb_lt i 0)) by exact A. reflexivity. }
  rewrite (proj2 (Z.ltb_ge i 0)) by exact A. destruct (Z.ltb_spec i (Z.of_nat (length l))) as [C|C].
  2:{ rewrite (proj2 (Z.leb_le _ _)) by exact C. reflexivity. }
  rewrite (proj2 (Z.leb_gt _ _)) by exact C. cbn [andb orb]. rewrite pow_nat in Bd.
  set (k := Z.to_nat i). assert (Hk : (k < 2 ^ depth)%nat) by (unfold k; lia).
  destruct (proof_ok (K:=Fp) zval pos2 (fp 0) (t_zeroes t) (t_nodes t) (padded l) 0 (length l) k Ll (padded_pads l)) as [E1 E2]; [rewrite Lz; exact Hk|].
  rewrite Lz in E1, E2. set (bits := digits depth k) in *.
  assert (Ib : index_of bits = k) by (apply digits_index; exact Hk). assert (Lb : length bits = depth) by apply digits_length.
  assert (Pv : path_value pos2 (fp (nth k l 0)) bits (siblings pos2 (padded l) 0 bits) = merkle_root pos2 depth l).
  { rewrite leaf_node, <- Ib, path_node, Nat.add_0_l, Lb. reflexivity. }
  assert (Ls : length (siblings pos2 (padded l) 0 bits) = depth) by (rewrite siblings_length; exact Lb).
  eexists _, bits, (siblings pos2 (padded l) 0 bits). split; [reflexivity|]. cbn [mp_root mp_siblings mp_path].
  split; [reflexivity|]. split; [exact E1|]. split; [exact E2|]. split; [unfold k in Ib; lia|]. split; [exact Lb|]. split; [exact Ls|]. split.
  - intro t'. unfold tree_verifyProof. cbn [mp_root mp_siblings mp_path]. rewrite E1, E2.
    rewrite <- (zval_small (nth k l 0)) at 1 by (rewrite Forall_forall in F; apply F, nth_In; unfold k; lia).
    rewrite (verify_ok (K:=Fp) zval pos2 ph ph_ok). rewrite Ls, <- Lb, heads_bits, Pv. cbn [bind]. rewrite Rt, Z.eqb_refl. reflexivity.
  - rewrite E2, b2z_fp, Rt, fp_zval, (merkle_ext cc_poseidon pos2) by exact cc_poseidon_ok. apply merkle_iff.
    exists bits. split; [reflexivity|]. split; [exact Lb|]. split; [exact Ls|]. symmetry. exact Pv.
Qed.

(** the levels of an accepted proof *)
Lemma ok_eq {A} (a b : A) : Ok a = Ok b -> a = b. Proof. congruence. Qed.
Lemma defined_length l xs : defined l = Some xs -> length xs = length l /\ l = map Some xs.
Proof.
  revert xs. induction l as [|[x|] l IH]; intros xs E; cbn [defined] in E; [injection E as <-; split; reflexivity| |discriminate].
  destruct (defined l) as [r|] eqn:D; [|discriminate]. injection E as <-. destruct (IH r eq_refl) as [L M]. cbn [length map]. split; [lia|congruence].
Qed.
Lemma in_splice l x a : forall e, In e (js_splice l x a) <-> e = a \/ In e l.
Proof.
  intro e. unfold js_splice. cbv zeta. set (s := Z.to_nat _). rewrite in_app_iff. cbn [In]. rewrite <- (firstn_skipn s l) at 3. rewrite in_app_iff. split; intros [?|[?|?]]; auto.
Qed.
Lemma verify_inv sibs : forall path a o, 0 <= a < 2 ^ 256 -> Forall (Forall fits) sibs -> verify_levels ph sibs path a = Ok o ->
  exists ss, sibs = singles ss /\ o = match sibs with [] => a | _ => zval (path_value pos2 (fp a) (directions (length sibs) path) ss) end /\ (sibs <> [] -> a < p).
Proof.
  induction sibs as [|s sibs IH]; intros path a o Ra F E; cbn [verify_levels] in E.
  - injection E as <-. exists []. split; [reflexivity|]. split; [reflexivity|]. tauto.
  - inversion F as [|? ? Fs Fr]; subst. destruct (hash_elts ph (js_splice s (hd 0 path) (Some a))) as [h| |] eqn:Eh; try discriminate. cbn [bind] in E.
    unfold hash_elts in Eh. destruct (defined _) as [xs|] eqn:D; [|discriminate]. destruct (defined_length _ _ D) as [Lx Mx]. rewrite splice_length in Lx.
    assert (Fx : Forall (fun x => 0 <= x < 2 ^ 256) xs).
    { rewrite Forall_forall in *. intros x Hx. assert (I : In (Some x) (js_splice s (hd 0 path) (Some a))) by (rewrite Mx; apply in_map; exact Hx).
      apply in_splice in I. destruct I as [I|I]; [injection I as ->; exact Ra|]. exact (Fs _ I). }
    destruct (Nat.eq_dec (length xs) 2) as [L2|L2]; [|rewrite hash_count in Eh by assumption; discriminate].
    destruct s as [|e [|e2 s]]; [cbn [length] in Lx; lia| |cbn [length] in Lx; lia].
    rewrite splice_one in Mx.
    assert (G : exists y, e = Some y /\ 0 <= y < p /\ a < p /\ h = zval (if is_right (hd 0 path) then pos2 (fp y) (fp a) else pos2 (fp a) (fp y))).
    { unfold is_right. destruct xs as [|x1 [|x2 [|? ?]]]; try discriminate. inversion Fx as [|? ? F1 Fx']; subst. inversion Fx' as [|? ? F2 _]; subst.
      rewrite hash_two in Eh by assumption. destruct (Z.ltb_spec x1 p) as [P1|]; [|discriminate]. destruct (Z.ltb_spec x2 p) as [P2|]; [|discriminate]. cbn [andb] in Eh.
      apply ok_eq in Eh. destruct (0 <? hd 0 path).
      - injection Mx as M1 M2. exists x1. subst a. split; [exact M1|]. split; [lia|]. split; [exact P2|]. symmetry. exact Eh.
      - injection Mx as M1 M2. exists x2. subst a. split; [exact M2|]. split; [lia|]. split; [exact P1|]. symmetry. exact Eh. }
    destruct G as (y & -> & Ry & Pa & Eh').
    assert (Rh : 0 <= h < 2 ^ 256).
    { subst h. match goal with |- 0 <= zval ?u < _ => pose proof (zval_range p u) end. assert (p < 2 ^ 256) by reflexivity. lia. }
    destruct (IH (tl path) h o Rh Fr E) as (ss & -> & Eo & _). exists (fp y :: ss). split.
    + unfold singles. cbn [map]. rewrite zval_small by exact Ry. reflexivity.
    + split; [|intros _; exact Pa]. cbn [length directions path_value]. rewrite Eo.
      assert (Ef : fp h = if is_right (hd 0 path) then pos2 (fp y) (fp a) else pos2 (fp a) (fp y)) by (subst h; apply fp_zval).
      rewrite <- Ef. destruct ss as [|s0 ss]; [|reflexivity]. cbn [singles map length directions path_value]. subst h. rewrite Ef. reflexivity.
Qed.

Theorem verify_sound depth t l t' proof leaf : built ph depth t l ->
  mp_root proof = tree_root t -> length (mp_siblings proof) = depth -> Forall (Forall fits) (mp_siblings proof) -> 0 <= leaf < 2 ^ 256 ->
  tree_verifyProof ph t' proof leaf = Ok true ->
  let bits := directions depth (mp_path proof) in
  exists sibs, mp_siblings proof = singles sibs /\
    (leaf = nth (index_of bits) l 0 \/
     collide pos2 (path_inputs pos2 (fp leaf) bits sibs)
       (path_inputs pos2 (padded l (index_of bits)) bits (siblings pos2 (padded l) 0 bits))).
Proof.
  intros B Er Ls F Rl V bits. apply built_rep in B. pose proof B as (D & Lz & Ln & Fl & Bd & Ll & Rt).
  unfold tree_verifyProof in V. destruct (verify_levels ph (mp_siblings proof) (mp_path proof) leaf) as [o| |] eqn:E; try discriminate. cbn [bind] in V.
  injection V as V. apply Z.eqb_eq in V. destruct (verify_inv _ _ _ _ Rl F E) as (ss & Es & Eo & Pl).
  assert (Lss : length ss = depth) by (rewrite Es in Ls; unfold singles in Ls; rewrite map_length in Ls; exact Ls).
  exists ss. split; [exact Es|]. destruct (mp_siblings proof) as [|s0 ss0] eqn:Em; [cbn [length] in Ls; lia|]. specialize (Pl ltac:(discriminate)).
  rewrite Ls in Eo. fold bits in Eo. assert (Lb : length bits = depth) by apply heads_length.
  assert (Ev : path_value pos2 (fp leaf) bits ss = path_value pos2 (padded l (index_of bits)) bits (siblings pos2 (padded l) 0 bits)).
  { change (padded l (index_of bits)) with (node pos2 (padded l) 0 (index_of bits)). rewrite path_node, Nat.add_0_l, Lb. apply zval_inj. rewrite <- Eo, <- V, Er. exact Rt. }
  destruct (path_inj pos2 bits ss (siblings pos2 (padded l) 0 bits) _ _ (eq_trans Lss (eq_sym Lb)) (siblings_length _ _ _ _) Ev) as [Ea|Ec]; [left|right; exact Ec].
  apply (f_equal zval) in Ea. rewrite zval_small in Ea by lia. rewrite Ea. unfold padded. apply zval_small.
  destruct (Nat.lt_ge_cases (index_of bits) (length l)) as [A|A]; [rewrite Forall_forall in Fl; apply Fl, nth_In; exact A|].
  rewrite nth_overflow by exact A. split; [lia|reflexivity].
Qed.

Theorem verify_any_leaf t x : exists proof, tree_verifyProof ph t proof x = Ok true.
Proof. exists {| mp_root := x; mp_siblings := []; mp_path := [] |}. unfold tree_verifyProof. cbn. rewrite Z.eqb_refl. reflexivity. Qed.
Lemma inner_node {A} (H : A -> A -> A) f : H (f 0%nat) (f 1%nat) = node H f 1 0. Proof. reflexivity. Qed.
Theorem verify_inner depth t l : built ph depth t l ->
  exists proof, mp_root proof = tree_root t /\ tree_verifyProof ph t proof (zval (pos2 (padded l 0) (padded l 1))) = Ok true.
Proof.
  intro B. apply built_rep in B. pose proof B as (D & Lz & Ln & Fl & Bd & Ll & Rt).
  rewrite (inner_node pos2 (padded l)).
  set (bits := repeat false (depth - 1)). assert (Lb : length bits = (depth - 1)%nat) by apply repeat_length.
  assert (Ib : index_of bits = 0%nat) by (unfold bits; generalize (depth - 1)%nat; intro k; induction k as [|k IH]; cbn [repeat index_of Nat.b2n]; lia).
  exists {| mp_root := tree_root t; mp_siblings := singles (siblings pos2 (padded l) 1 bits); mp_path := map Z.b2z bits |}.
  split; [reflexivity|]. unfold tree_verifyProof. cbn [mp_root mp_siblings mp_path]. unfold singles. rewrite (verify_ok (K:=Fp) zval pos2 ph ph_ok).
  rewrite siblings_length, heads_bits. cbn [bind].
  pose proof (path_node pos2 (padded l) bits 1) as Pn. rewrite Ib, Lb in Pn. rewrite Pn.
  replace (1 + (depth - 1))%nat with depth by lia. unfold tree_root, merkle_root in *. rewrite Rt, Z.eqb_refl. reflexivity.
Qed.

(** a leaf that is not a field element *)
Lemma write_end l (x : Z) : js_write (map Some l) (length l) x = map Some (l ++ [x]).
Proof. induction l as [|y l IH]; cbn [map length js_write app]; [reflexivity|]. rewrite IH. reflexivity. Qed.
Lemma ph_bad x y : 0 <= x < 2 ^ 256 -> 0 <= y < 2 ^ 256 -> p <= x \/ p <= y -> ph [x; y] = Panic.
Proof.
  intros Rx Ry H. rewrite hash_two by assumption. destruct (Z.ltb_spec x p); destruct (Z.ltb_spec y p); try reflexivity. lia.
Qed.
Lemma child_of z l i : child z (map Some l) i = Some (nth i l z).
Proof.
  destruct (Nat.lt_ge_cases i (length l)) as [A|A].
  - rewrite child_some by (rewrite map_length; exact A). rewrite (nth_indep _ None (Some z)) by (rewrite map_length; exact A). apply map_nth.
  - rewrite child_none by (rewrite map_length; exact A). rewrite nth_overflow by exact A. reflexivity.
Qed.
(** appending to a level 0 whose last pair holds an element that is too large *)
Lemma bad_append zs nodes l x z root : 
  Forall (fun y => 0 <= y < 2 ^ 256) (l ++ [x]) -> 0 <= z < 2 ^ 256 ->
  (p <= x \/ (length l mod 2 = 1)%nat /\ p <= last l 0) ->
  write_leaf ph {| t_zeroes := z :: zs; t_nodes := map Some l :: nodes; t_root := root |} (length l) x =
  ({| t_zeroes := z :: zs; t_nodes := map Some (l ++ [x]) :: nodes; t_root := root |}, Panic).
Proof.
  intros F Rz Hb. unfold write_leaf. cbn [t_zeroes t_nodes t_root climb]. rewrite write_end. rewrite start_of. cbn [seq map]. rewrite !child_of.
  assert (Rn : forall i, 0 <= nth i (l ++ [x]) z < 2 ^ 256).
  { intro i. destruct (nth_in_or_default i (l ++ [x]) z) as [I|I]; [rewrite Forall_forall in F; exact (F _ I)|rewrite I; exact Rz]. }
  unfold hash_elts. cbn [defined]. rewrite ph_bad; [reflexivity|apply Rn|apply Rn|].
  destruct (even_or_odd (length l)) as [[E M]|[E M]].
  - left. rewrite <- E, app_nth2, Nat.sub_diag by lia. cbn [nth]. destruct Hb as [H|[H _]]; [exact H|lia].
  - replace (S (2 * (length l / 2)))%nat with (length l) by lia. destruct Hb as [H|[_ H]].
    + right. rewrite app_nth2, Nat.sub_diag by lia. exact H.
    + left. rewrite app_nth1 by lia. replace (2 * (length l / 2))%nat with (length l - 1)%nat by lia.
      rewrite (nth_indep _ _ 0) by lia. replace (nth (length l - 1) l 0) with (last l 0); [exact H|].
      clear. induction l as [|a [|b l] IH]; [reflexivity|reflexivity|]. cbn [length]. replace (S (S (length l)) - 1)%nat with (S (length l)) by lia.
      cbn [length] in IH. replace (S (length l) - 1)%nat with (length l) in IH by lia. exact IH.
Qed.

Theorem bad_leaf depth t l x : built ph depth t l -> Z.of_nat (length l) < 2 ^ Z.of_nat depth -> p <= x < 2 ^ 256 ->
  exists t', tree_insert ph t x = (t', Panic) /\ tree_leaves t' = map Some (l ++ [x]) /\ tree_root t' = tree_root t /\
    (Nat.even (length l) = true -> forall y, 0 <= y < p -> exists t'', tree_insert ph t' y = (t'', Panic) /\
       tree_leaves t'' = map Some (l ++ [x; y]) /\ tree_root t'' = tree_root t).
Proof.
  intros B Hl Rx. apply built_rep in B. pose proof B as (D & Lz & Ln & Fl & Bd & Ll & Rt). pose proof (rep_level0 depth t l B) as L0. pose proof (rep_zero depth t l B) as Z0.
  unfold tree_insert. rewrite L0, map_length. unfold tree_depth. rewrite Ln. rewrite Z.geb_leb, (proj2 (Z.leb_gt _ _)) by exact Hl.
  destruct t as [zs nodes root]. unfold tree_level0 in L0. cbn [t_zeroes t_nodes t_root] in *.
  destruct zs as [|z zs]; [cbn [length] in Lz; lia|]. destruct nodes as [|a nodes]; [cbn [length] in Ln; lia|]. cbn [nth] in L0, Z0. subst a z.
  assert (Hp : p < 2 ^ 256) by reflexivity.
  assert (F2 : Forall (fun y => 0 <= y < 2 ^ 256) l) by (eapply Forall_impl; [|exact Fl]; intros y Hy; unfold in_fp in Hy; lia).
  assert (P0 : 0 < p) by reflexivity.
  eexists. split; [apply bad_append; [apply Forall_app; split; [exact F2|constructor; [lia|constructor]]|lia|left; lia]|].
  unfold tree_leaves, tree_root, tree_level0. cbn [t_nodes t_root nth]. split; [reflexivity|]. split; [reflexivity|].
  intros Ev y Ry. rewrite map_length, app_length. cbn [length] in Ln |- *. rewrite Ln.
  apply Nat.even_spec in Ev. destruct Ev as [m Em].
  assert (Hl2 : Z.of_nat (length l + 1) < 2 ^ Z.of_nat depth).
  { destruct depth as [|d]; [lia|]. rewrite pow_nat in *. rewrite Nat.pow_succ_r' in *. lia. }
  rewrite Z.geb_leb, (proj2 (Z.leb_gt _ _)) by exact Hl2. replace (length l + 1)%nat with (length (l ++ [x])) by (rewrite app_length; reflexivity).
  eexists. split; [apply bad_append|].
  - apply Forall_app; split; [apply Forall_app; split; [exact F2|constructor; [lia|constructor]]|constructor; [lia|constructor]].
  - lia.
  - right. rewrite app_length. cbn [length]. split; [|rewrite last_last; lia].
    replace (length l + 1)%nat with (1 + m * 2)%nat by lia. rewrite Nat.mod_add by lia. reflexivity.
  - cbn [t_nodes t_root nth]. rewrite <- app_assoc. split; reflexivity.
Qed.

Lemma index_of_spec (l : list Z) x : forall i, 0 <= i ->
  (js_index_of (map Some l) x i = -1 /\ ~ In x l) \/
  exists j, js_index_of (map Some l) x i = i + Z.of_nat j /\ (j < length l)%nat /\ nth j l 0 = x /\ forall k, (k < j)%nat -> nth k l 0 <> x.
Proof.
  induction l as [|y l IH]; intros i Hi; cbn [map js_index_of]; [left; split; [reflexivity|tauto]|].
  destruct (Z.eqb_spec y x) as [E|N].
  - right. exists 0%nat. cbn [length nth]. repeat split; (lia || exact E).
  - destruct (IH (i + 1) ltac:(lia)) as [[E I]|(j & E & L & En & Ek)].
    + left. split; [exact E|]. cbn [In]. tauto.
    + right. exists (S j). cbn [length nth]. split; [lia|]. split; [lia|]. split; [exact En|]. intros [|k] Hk; [exact N|apply Ek; lia].
Qed.
Theorem first_index depth t l x : built ph depth t l ->
  (tree_indexOf t x = -1 /\ ~ In x l) \/
  exists j, tree_indexOf t x = Z.of_nat j /\ (j < length l)%nat /\ nth j l 0 = x /\ forall k, (k < j)%nat -> nth k l 0 <> x.
Proof. intro B. apply built_rep in B. unfold tree_indexOf. rewrite (rep_level0 _ _ _ B). exact (index_of_spec l x 0 (Z.le_refl 0)). Qed.
