(** The theorems about Poseidon, Merkle trees and public-key membership in the form
    in which the property files state them. *)
From Coq Require Import ZArith Znumtheory Zpow_facts List Bool Arith Lia Field Ring.
From Verif Require Import Base Fermat Primes Field Zq CurveSpec Secp SecpOrder CircModel CircSpec CircBits CircApi.
From Verif Require Import PosConst PosModel PosSpec PosProofs.
Import ListNotations.
Local Open Scope Z_scope.

(** the constants as field elements *)
Definition posC (i : nat) : Fp := fp (nth i rs_keys 0).
Definition posM (i j : nat) : Fp := fp (nth j (nth i rs_mds []) 0).
(** the hash specified with these constants *)
Definition pos2 : Fp -> Fp -> Fp := poseidon posC posM 4 56.

Lemma nth_map_fp l i : nth i (map fp l) f0 = fp (nth i l 0).
Proof. exact (map_nth fp l 0 i). Qed.
Lemma nth_map_map_fp l i : nth i (map (map fp) l) [] = map fp (nth i l []).
Proof. exact (map_nth (map fp) l [] i). Qed.

Lemma consts_same : rs_keys = cc_keys /\ rs_mds = cc_mds /\ length rs_keys = 192%nat.
Proof. split; [reflexivity|split; reflexivity]. Qed.

(** the specification only looks at the constants *)
Lemma prounds_ext {K : Fld} (C C' : nat -> K) (M M' : nat -> nat -> K) half rp n v :
  (forall i, C i = C' i) -> (forall i j, M i j = M' i j) -> prounds C M half rp n v = prounds C' M' half rp n v.
Proof.
  intros EC EM. induction n as [|n IH]; [reflexivity|]. cbn [prounds]. rewrite IH.
  unfold pround, ark, mix. destruct (prounds C' M' half rp n v) as [[a b] c]. rewrite !EC.
  destruct (is_full half rp n); cbn [sub_all sub_one]; rewrite !EM; reflexivity.
Qed.

Lemma mds_shape (l : list (list Z)) : l = rs_mds -> exists r0 r1 r2 : list Fp, map (map fp) l = [r0; r1; r2] /\
  (3 <= length r0)%nat /\ (3 <= length r1)%nat /\ (3 <= length r2)%nat.
Proof. intros ->. do 3 eexists. split; [reflexivity|]. rewrite !map_length. cbn [length]. lia. Qed.

Lemma poseidon_ext {K : Fld} (C C' : nat -> K) (M M' : nat -> nat -> K) half rp x y :
  (forall i, C i = C' i) -> (forall i j, M i j = M' i j) -> poseidon C M half rp x y = poseidon C' M' half rp x y.
Proof. intros EC EM. unfold poseidon, poseidon_perm. rewrite (prounds_ext C C' M M') by assumption. reflexivity. Qed.

Theorem k256_first (s : pstate Fp) x y : ps_pos s = 0%nat ->
  exists s', ps_pos s' = 192%nat /\ pos_hash k256_consts s x y = Ok (pos2 x y, s').
Proof.
  intro E. assert (L : length (map fp rs_keys) = 192%nat) by (rewrite map_length; reflexivity).
  destruct (pos_hash_ok (map fp rs_keys) (map (map fp) rs_mds) (mds_shape _ eq_refl) 8 56 s x y) as (s' & P & H).
  - rewrite E, L. cbn [Nat.div2]. lia.
  - exists s'. split; [rewrite P, E; reflexivity|]. change k256_consts with (MkPC (map fp rs_keys) (map (map fp) rs_mds) 8 56).
    rewrite H. do 2 f_equal. cbn [Nat.div2]. apply poseidon_ext; intros.
    + rewrite E. apply nth_map_fp.
    + rewrite nth_map_map_fp. apply nth_map_fp.
Qed.

Theorem k256_hash_ok x y : k256_hash x y = Ok (pos2 x y).
Proof.
  unfold k256_hash. destruct (k256_first pos_new x y eq_refl) as (s' & _ & E). rewrite E. reflexivity.
Qed.
Theorem cc_poseidon_ok x y : cc_poseidon x y = pos2 x y.
Proof.
  unfold cc_poseidon. rewrite cc_hash_ok.
  destruct consts_same as (<- & <- & _).
  apply poseidon_ext; intros; [apply nth_map_fp|]. rewrite nth_map_map_fp. apply nth_map_fp.
Qed.

Theorem k256_second (s s' : pstate Fp) x y h : ps_pos s = 0%nat -> pos_hash k256_consts s x y = Ok (h, s') ->
  forall x' y', pos_hash k256_consts s' x' y' = Panic.
Proof.
  intros E H x' y'. destruct (k256_first s x y E) as (s1 & P & H1). rewrite H1 in H.
  assert (Es : s1 = s') by congruence. subst s'.
  assert (L : (length (map fp rs_keys) <= ps_pos s1)%nat)
    by (rewrite P, map_length; rewrite (proj2 (proj2 consts_same)); apply Nat.le_refl).
  exact (pos_hash_out (map fp rs_keys) (map (map fp) rs_mds) 8 56 s1 x' y' (proj1 (Nat.ltb_lt 0 4) eq_refl) L).
Qed.

(** ** the permutation is a bijection *)
Section Bij.
  Context {K : Fld}.
  Add Field Kbij : (fth K).
  Local Open Scope fld_scope.
  Variables (C : nat -> K) (M N : nat -> nat -> K) (root : K -> K).
  Hypothesis rl : forall x, root (quint x) = x.
  Hypothesis rr : forall x, quint (root x) = x.
  Hypothesis NM : forall v : vec3 K, mix N (mix M v) = v.
  Hypothesis MN : forall v : vec3 K, mix M (mix N v) = v.
  Definition unround (half rp r : nat) (v : vec3 K) : vec3 K :=
    let '(a, b, c) := mix N v in
    let '(a, b, c) := if is_full half rp r then (root a, root b, root c) else (root a, b, c) in
    (a - C (3 * r)%nat, b - C (3 * r + 1)%nat, c - C (3 * r + 2)%nat).
  Lemma unround_l half rp r v : unround half rp r (pround C M half rp r v) = v.
  Proof.
    unfold unround, pround. rewrite NM. destruct v as [[a b] c]. unfold ark.
    destruct (is_full half rp r); cbn [sub_all sub_one]; rewrite !rl;
      (apply f_equal2; [apply f_equal2|]); ring.
  Qed.
  Lemma unround_r half rp r v : pround C M half rp r (unround half rp r v) = v.
  Proof.
    unfold unround, pround. destruct (mix N v) as [[a b] c] eqn:E.
    destruct (is_full half rp r); unfold ark; cbn [sub_all sub_one].
    - replace (root a - C (3 * r)%nat + C (3 * r)%nat) with (root a) by ring.
      replace (root b - C (3 * r + 1)%nat + C (3 * r + 1)%nat) with (root b) by ring.
      replace (root c - C (3 * r + 2)%nat + C (3 * r + 2)%nat) with (root c) by ring.
      rewrite !rr, <- E. apply MN.
    - replace (root a - C (3 * r)%nat + C (3 * r)%nat) with (root a) by ring.
      replace (b - C (3 * r + 1)%nat + C (3 * r + 1)%nat) with b by ring.
      replace (c - C (3 * r + 2)%nat + C (3 * r + 2)%nat) with c by ring.
      rewrite !rr, <- E. apply MN.
  Qed.
  Fixpoint unrounds (half rp n : nat) (v : vec3 K) : vec3 K :=
    match n with O => v | S n' => unrounds half rp n' (unround half rp n' v) end.
  Lemma unrounds_ok half rp n : forall v,
    unrounds half rp n (prounds C M half rp n v) = v /\ prounds C M half rp n (unrounds half rp n v) = v.
  Proof.
    induction n as [|n IH]; intro v; [split; reflexivity|]. cbn [prounds unrounds]. split.
    - rewrite unround_l. apply IH.
    - rewrite (proj2 (IH _)). apply unround_r.
  Qed.
End Bij.
Section Gen.
  Context {K : Fld}.
  Add Field Kgen5 : (fth K).
  Lemma quint_iter (a : K) : quint a = Nat.iter 5 (fmul a) f1.
  Proof. cbn [Nat.iter nat_rect]. unfold quint. ring. Qed.
  Lemma mix_mix (A B : nat -> nat -> K) :
    (forall i j, (i < 3)%nat -> (j < 3)%nat ->
      fadd (fadd (fmul (A i 0%nat) (B 0%nat j)) (fmul (A i 1%nat) (B 1%nat j))) (fmul (A i 2%nat) (B 2%nat j)) =
      if (i =? j)%nat then f1 else f0) ->
    forall v, mix A (mix B v) = v.
  Proof.
    intros E [[a b] c]. cbn [mix].
    assert (R : forall i, (i < 3)%nat ->
      fadd (fadd (fmul (A i 0%nat) (fadd (fadd (fmul (B 0%nat 0%nat) a) (fmul (B 0%nat 1%nat) b)) (fmul (B 0%nat 2%nat) c)))
        (fmul (A i 1%nat) (fadd (fadd (fmul (B 1%nat 0%nat) a) (fmul (B 1%nat 1%nat) b)) (fmul (B 1%nat 2%nat) c))))
        (fmul (A i 2%nat) (fadd (fadd (fmul (B 2%nat 0%nat) a) (fmul (B 2%nat 1%nat) b)) (fmul (B 2%nat 2%nat) c))) =
      fadd (fadd (fmul (if (i =? 0)%nat then f1 else f0) a) (fmul (if (i =? 1)%nat then f1 else f0) b))
        (fmul (if (i =? 2)%nat then f1 else f0) c)).
    { intros i Hi. rewrite <- (E i 0%nat), <- (E i 1%nat), <- (E i 2%nat) by lia. ring. }
    rewrite (R 0%nat), (R 1%nat), (R 2%nat) by lia. cbn [Nat.eqb].
    apply f_equal2; [apply f_equal2|]; ring.
  Qed.
End Gen.

Lemma fp_powz (a : Z) (k : nat) : fp (a ^ Z.of_nat k) = Nat.iter k (fmul (fp a)) f1.
Proof.
  induction k as [|k IH]; [reflexivity|]. rewrite Nat2Z.inj_succ, Z.pow_succ_r by lia. rewrite fp_mul, IH. reflexivity.
Qed.
Lemma quint_fp a : quint (fp a) = fp (a ^ 5).
Proof. change 5 with (Z.of_nat 5). rewrite fp_powz. apply quint_iter. Qed.

(** 5 is invertible modulo p - 1 *)
Definition e5 : Z := 46316835694926478169428394003475163141307993866256225615783033603163533868665.
Lemma e5_ok : 5 * e5 = 1 + 2 * (p - 1).
Proof. vm_compute. reflexivity. Qed.
Definition root5 (x : Fp) : Fp := fp (zval x ^ e5).
Lemma pow_e5 a : 0 <= a -> fp ((a ^ 5) ^ e5) = fp a.
Proof.
  intro Ha. rewrite <- Z.pow_mul_r by (unfold e5; lia). rewrite e5_ok.
  assert (Hp : 0 < p) by reflexivity.
  rewrite Z.pow_add_r by lia. rewrite Z.pow_1_r.
  destruct (Zdivide_dec p a) as [D|D].
  - apply fp_eq. rewrite Zmult_mod. apply Zdivide_mod in D. rewrite D. rewrite Z.mul_0_l. reflexivity.
  - apply fp_eq. rewrite Z.mul_comm with (n := 2), Z.pow_mul_r by lia.
    rewrite <- Zmult_mod_idemp_r, Zpower_mod by lia. rewrite (fermat_Z1 a p prime_p D).
    change (1 ^ 2) with 1. rewrite Z.mod_1_l by reflexivity. rewrite Z.mul_1_r. reflexivity.
Qed.
Lemma root5_l x : root5 (quint x) = x.
Proof.
  rewrite <- (fp_zval x). rewrite quint_fp. unfold root5.
  pose proof (zval_range p x) as R. generalize dependent (zval x). intros a R.
  transitivity (fp ((a ^ 5) ^ e5)); [|apply pow_e5; lia].
  apply fp_eq. change (zval (fp (a ^ 5))) with ((a ^ 5) mod p). symmetry. apply Zpower_mod. reflexivity.
Qed.
Lemma root5_r x : quint (root5 x) = x.
Proof.
  unfold root5. rewrite quint_fp, <- Z.pow_mul_r, Z.mul_comm, Z.pow_mul_r by (unfold e5; lia).
  rewrite pow_e5; [apply fp_zval|]. pose proof (zval_range p x). lia.
Qed.

Definition imds : list (list Z) :=
 [[49917276610246403212112495853272371383396631685525998178897949245615548404182; 100944001773703748460608666417983143894716088871601686033832087570894454703568; 12742666637083894360116674799668952562462955272390384112931479252406291639877];
  [40480075600800396071175210119871292059751704145255955069968840432741546473344; 37285965344390717052582903656158513581748399890701023944267995966294022789322; 9421415297069732899589305434326101832698823350847656751743380854095446997180];
  [32837425348040277060710982779213714176041641033875828694975615040116863929565; 9890956396827025214292260480374918493387939472934970769117620788213615163762; 24965657908868697621414165875368116170484149325556898599429849649014076199388]].
Definition posN (i j : nat) : Fp := fp (nth j (nth i imds []) 0).

Ltac entries := intros i j Hi Hj;
  destruct i as [|[|[|i]]]; [| | |exfalso; lia]; (destruct j as [|[|[|j]]]; [| | |exfalso; lia]);
  apply zq_eq; vm_compute; reflexivity.
Lemma posNM v : mix posN (mix posM v) = v.
Proof. apply mix_mix. entries. Qed.
Lemma posMN v : mix posM (mix posN v) = v.
Proof. apply mix_mix. entries. Qed.

Theorem poseidon_bijective : exists inv : vec3 Fp -> vec3 Fp,
  forall v, inv (poseidon_perm posC posM 4 56 v) = v /\ poseidon_perm posC posM 4 56 (inv v) = v.
Proof.
  exists (unrounds posC posN root5 4 56 (4 + 56 + 4)).
  exact (unrounds_ok posC posM posN root5 root5_l root5_r posNM posMN 4 56 (4 + 56 + 4)).
Qed.

(** ** Merkle trees *)
Section M.
  Context {K : Fld}.
  Variable H : K -> K -> K.
  Theorem merkle_complete leaves (bits : list bool) :
    merkle H (length bits) (leaves (index_of bits)) (map bit_of bits) (siblings H leaves 0 bits) =
    Some (node H leaves (length bits) 0).
  Proof.
    apply merkle_iff. exists bits. rewrite siblings_length. repeat split.
    symmetry. exact (path_node H leaves bits 0).
  Qed.
  Theorem merkle_every_leaf leaves (d i : nat) : (i < 2 ^ d)%nat ->
    exists bits, length bits = d /\ index_of bits = i /\
    merkle H d (leaves i) (map bit_of bits) (siblings H leaves 0 bits) = Some (node H leaves d 0).
  Proof.
    intro Hi. destruct (index_surj d i Hi) as (bits & L & E). exists bits. split; [exact L|]. split; [exact E|].
    subst d i. apply merkle_complete.
  Qed.
  Theorem merkle_sound leaves (d : nat) leaf path sibs :
    merkle H d leaf path sibs = Some (node H leaves d 0) ->
    exists bits, path = map bit_of bits /\ (index_of bits < 2 ^ d)%nat /\
      (leaf = leaves (index_of bits) \/
       collide H (path_inputs H leaf bits sibs) (path_inputs H (leaves (index_of bits)) bits (siblings H leaves 0 bits))).
  Proof.
    intro E. apply merkle_iff in E. destruct E as (bits & P & L & Ls & R). exists bits. split; [exact P|].
    split; [rewrite <- L; apply index_bound|].
    apply (path_inj H bits sibs (siblings H leaves 0 bits)); [congruence|apply siblings_length|].
    rewrite <- R. rewrite <- L. symmetry. exact (path_node H leaves bits 0).
  Qed.
  Theorem merkle_unique (d : nat) leaf leaf' path sibs sibs' root :
    merkle H d leaf path sibs = Some root -> merkle H d leaf' path sibs' = Some root ->
    exists bits, path = map bit_of bits /\
      (leaf = leaf' \/ collide H (path_inputs H leaf bits sibs) (path_inputs H leaf' bits sibs')).
  Proof.
    intros E E'. apply merkle_iff in E. destruct E as (bits & P & L & Ls & R).
    apply merkle_iff in E'. destruct E' as (bits' & P' & L' & Ls' & R').
    assert (Eb : bits' = bits).
    { assert (inj : forall a b : list bool, map (@bit_of K) a = map bit_of b -> a = b).
      { induction a as [|x a IH]; intros [|y b] E; try discriminate; [reflexivity|]. cbn [map] in E.
        injection E as E1 E2. f_equal; [|apply IH; exact E2].
        destruct x, y; try reflexivity; exfalso; apply (f1_neq_0 K); unfold bit_of in E1; congruence. }
      apply inj. congruence. }
    subst bits'. exists bits. split; [exact P|]. apply (path_inj H bits sibs sibs'); congruence.
  Qed.
End M.

(** ** PubKeyMembership *)
Lemma merkle_ext {K : Fld} (H H' : K -> K -> K) nl leaf path sibs : (forall a b, H a b = H' a b) ->
  merkle H nl leaf path sibs = merkle H' nl leaf path sibs.
Proof.
  intro E. unfold merkle. destruct (_ && _); [|reflexivity]. generalize (combine path sibs). intro l.
  revert leaf. induction l as [|[b s] l IH]; intro leaf; [reflexivity|]. cbn [merkle_levels].
  destruct (feqb _ _); [|reflexivity]. rewrite E. apply IH.
Qed.

Lemma pubkey_inv nl w s root Tx Ty Ux Uy path sibs :
  pubkey_membership nl w s root Tx Ty Ux Uy path sibs = true <->
  exists Q, eff_ecdsa w s Tx Ty Ux Uy = Some Q /\ merkle pos2 nl (pos2 (fst Q) (snd Q)) path sibs = Some root.
Proof.
  unfold pubkey_membership. destruct (eff_ecdsa w s Tx Ty Ux Uy) as [[qx qy]|].
  - rewrite cc_poseidon_ok, (merkle_ext cc_poseidon pos2) by exact cc_poseidon_ok. split.
    + destruct (merkle pos2 nl (pos2 qx qy) path sibs) as [r|] eqn:E; [|discriminate]. intro B.
      apply feqb_true in B. subst r. exists (qx, qy). split; [reflexivity|exact E].
    + intros (Q & E & M). injection E as <-. cbn [fst snd] in M. rewrite M. apply feqb_refl.
  - split; [discriminate|]. intros (Q & E & _). discriminate.
Qed.

Theorem pubkey_sound nl w s m r x y ri Tx Ty path sibs (keys : nat -> Fp * Fp) :
  0 < r < n -> secp_point (Some (x, y)) -> zval x mod n = r -> (r * ri) mod n = 1 -> eff_T ri (Some (x, y)) = Some (Tx, Ty) ->
  let U := enc (eff_U ri m) in
  let leaves := fun i => pos2 (fst (keys i)) (snd (keys i)) in
  pubkey_membership nl w s (node pos2 leaves nl 0) Tx Ty (fst U) (snd U) path sibs = true ->
  exists o bits k, eff_ecdsa w s Tx Ty (fst U) (snd U) = Some o /\ path = map bit_of bits /\ (index_of bits < 2 ^ nl)%nat /\
    0 <= k < 2 ^ 256 /\
    (o = keys (index_of bits) \/
     collide pos2 (o :: path_inputs pos2 (pos2 (fst o) (snd o)) bits sibs)
       (keys (index_of bits) :: path_inputs pos2 (leaves (index_of bits)) bits (siblings pos2 leaves 0 bits))) /\
    (let M := emul (2 ^ 256 + k) (Some (Tx, Ty)) in
     k <> kfree -> tail_ok k (Some (Tx, Ty)) -> M <> eff_U ri m \/ M = None -> ~ degenerate M (eff_U ri m) ->
     (2 ^ 256 + k) mod n <> 0 ->
     exists Q, o = enc Q /\ ecdsa_ok Q m r ((2 ^ 256 + k) mod n)).
Proof.
  intros Hr SR Hx Hri HT U leaves E. apply pubkey_inv in E. destruct E as (Q & E & M).
  destruct (merkle_sound _ _ _ _ _ _ M) as (bits & P & B & L).
  destruct (eff_circuit_sound w s m r x y ri Tx Ty Q Hr SR Hx Hri HT E) as (k & Hk & F).
  exists Q, bits, k. split; [exact E|]. split; [exact P|]. split; [exact B|]. split; [exact Hk|]. split; [|exact F].
  destruct L as [L|(u & v & I & Nu & Hu)]; [|right; exists u, v; exact (conj (or_intror I) (conj Nu Hu))].
  set (q := keys (index_of bits)) in *. change (leaves (index_of bits)) with (pos2 (fst q) (snd q)) in *.
  destruct (feqb_spec Fp (fst Q) (fst q)) as [E1|E1].
  2:{ right. exists Q, q. split; [left; reflexivity|]. split; [congruence|exact L]. }
  destruct (feqb_spec Fp (snd Q) (snd q)) as [E2|E2].
  2:{ right. exists Q, q. split; [left; reflexivity|]. split; [congruence|exact L]. }
  left. rewrite (surjective_pairing Q), E1, E2. symmetry. apply surjective_pairing.
Qed.

Theorem pubkey_complete dv nl Q m r s x y ri Tx Ty (keys : nat -> Fp * Fp) (i : nat) :
  division dv -> 0 < r < n -> 0 < s < n -> secp_point (Some (x, y)) -> zval x mod n = r -> (r * ri) mod n = 1 ->
  eff_T ri (Some (x, y)) = Some (Tx, Ty) -> Q = eadd (emul s (Some (Tx, Ty))) (eff_U ri m) ->
  ~ carry_lost s -> tail_ok ((s - 2 ^ 256) mod n) (Some (Tx, Ty)) -> ~ degenerate (emul s (Some (Tx, Ty))) (eff_U ri m) ->
  (i < 2 ^ nl)%nat -> keys i = enc Q ->
  let U := enc (eff_U ri m) in
  let leaves := fun i => pos2 (fst (keys i)) (snd (keys i)) in
  exists bits, length bits = nl /\ index_of bits = i /\
    pubkey_membership nl (h_eff dv (fp s) Tx Ty (fst U) (snd U)) (fp s) (node pos2 leaves nl 0) Tx Ty (fst U) (snd U)
      (map bit_of bits) (siblings pos2 leaves 0 bits) = true.
Proof.
  intros Hd Hr Hs SR Hx Hri HT HQ Hc Ht Hg Hi Hk U leaves.
  destruct (merkle_every_leaf pos2 leaves nl i Hi) as (bits & L & E & Mk). exists bits. split; [exact L|]. split; [exact E|].
  apply pubkey_inv. exists (enc Q). split.
  - exact (proj2 (eff_circuit_complete dv Q m r s x y ri Tx Ty Hd Hr Hs SR Hx Hri HT HQ Hc Ht Hg)).
  - rewrite <- Hk. exact Mk.
Qed.
