(** Keccak-256, addresses and address membership in the form in which the property
    files state them. *)
From Coq Require Import ZArith List Bool Arith Lia Field Ring.
From Verif Require Import Base Primes Field Zq CurveSpec Secp SecpOrder CircModel CircSpec CircBits CircApi.
From Verif Require Import PosModel PosSpec PosProofs PosApi KecModel KecSpec KecProofs.
Import ListNotations.

Section Sponge.
  Context {K : Fld}.
  Add Field Kkapi : (fth K).
  Local Open Scope fld_scope.
  Local Notation bo := (@bit_of K).

  Lemma reps_list n l f : reps n l f -> l = map bo (map f (seq 0 n)).
  Proof.
    intros [L H]. apply (nth_ext _ _ 0 0).
    - rewrite !map_length, seq_length. exact L.
    - intros i Hi. rewrite L in Hi. rewrite (H i Hi), map_map, nth_map_seq by exact Hi. reflexivity.
  Qed.
  Lemma reps_bits (m : list bool) : reps (length m) (map bo m) (fun i => nth i m false).
  Proof. split; [apply map_length|]. intros i _. exact (map_nth bo m false i). Qed.
  Lemma reps_zero n : reps n (repeat (0 : K) n) (fun _ => false).
  Proof. split; [apply repeat_length|]. intros i Hi. rewrite nth_repeat. reflexivity. Qed.

  Lemma pad_ok (m : list bool) : (length m <= 1080)%nat ->
    reps 1088 (pad (length m) (map bo m)) (fun i => nth i (m ++ [true] ++ repeat false (1088 - 2 - length m) ++ [true]) false).
  Proof.
    intro Hm. unfold pad. cbv zeta. set (n := length m) in *.
    assert (F : firstn n (map bo m) = map bo m) by (apply firstn_all2; rewrite map_length; apply Nat.le_refl).
    rewrite F.
    assert (R2 := reps_app n (8 + (1088 - (n + 8))) _ _ _ _ (reps_bits m)
      (reps_app 8 (1088 - (n + 8)) _ _ _ _ (reps_const 8 1) (reps_zero (1088 - (n + 8))))).
    replace (n + (8 + (1088 - (n + 8))))%nat with 1088%nat in R2 by lia.
    assert (RS := reps_skipn 1088 _ _ 1080 R2 ltac:(lia)).
    assert (RF := reps_firstn 1088 _ _ 1080 R2 ltac:(lia)).
    change (1088 - 1080)%nat with 8%nat in RS.
    assert (RO := reps_or 8 _ _ _ _ RS (reps_const 8 128)).
    apply (reps_ext _ _ _ _ (reps_app 1080 8 _ _ _ _ RF RO)). intros i Hi. cbv beta.
    change (1080 + 8)%nat with 1088%nat in Hi.
    assert (T1 : forall k, (0 < k)%nat -> Z.testbit 1 (Z.of_nat k) = false).
    { intros k Hk. apply Z.bits_above_log2; [lia|]. change (Z.log2 1) with 0%Z. lia. }
    assert (B1 : forall k, (if (k <? 8)%nat then Z.testbit 1 (Z.of_nat k) else false) = (k =? 0)%nat).
    { intro k. destruct (Nat.eqb_spec k 0) as [->|Hk]; [reflexivity|]. rewrite T1 by lia. destruct (k <? 8)%nat; reflexivity. }
    assert (N : nth i (m ++ [true] ++ repeat false (1088 - 2 - n) ++ [true]) false =
      if (i <? n)%nat then nth i m false else orb (i - n =? 0)%nat (i =? 1087)%nat).
    { destruct (Nat.ltb_spec i n) as [Hl|Hl].
      - apply app_nth1. exact Hl.
      - rewrite app_nth2 by exact Hl. fold n. destruct (i - n)%nat as [|k] eqn:E; [reflexivity|]. cbn [app nth Nat.eqb orb].
        destruct (Nat.eqb_spec i 1087) as [E7|E7].
        + rewrite app_nth2 by (rewrite repeat_length; lia). rewrite repeat_length.
          replace (k - (1088 - 2 - n))%nat with 0%nat by lia. reflexivity.
        + rewrite app_nth1 by (rewrite repeat_length; lia). apply nth_repeat. }
    rewrite N. destruct (Nat.ltb_spec i 1080) as [H1|H1].
    - destruct (Nat.ltb_spec i n) as [H2|H2]; [reflexivity|]. rewrite B1.
      replace (i =? 1087)%nat with false by (symmetry; apply Nat.eqb_neq; lia). rewrite orb_false_r. reflexivity.
    - replace (1080 + (i - 1080))%nat with i by lia.
      replace (i <? n)%nat with false by (symmetry; apply Nat.ltb_ge; lia). rewrite B1. f_equal.
      clear - H1 Hi. assert (E : exists j, (i = 1080 + j)%nat) by (exists (i - 1080)%nat; lia). destruct E as [j ->].
      do 8 (destruct j as [|j]; [reflexivity|]). lia.
  Qed.

  Lemma string_index i : (64 * (5 * (i / 320) + (i / 64) mod 5) + i mod 64)%nat = i.
  Proof.
    change 320%nat with (64 * 5)%nat. rewrite <- Nat.div_div by lia.
    rewrite <- (Nat.div_mod (i / 64) 5) by lia. symmetry. apply Nat.div_mod. lia.
  Qed.
  Lemma srep_string (l : list K) (s : list bool) : reps 1600 l (fun i => nth i s false) -> srep l (of_string s).
  Proof. intro H. apply (reps_ext _ _ _ _ H). intros i _. unfold of_string. rewrite string_index. reflexivity. Qed.

  Lemma absorb_ok (l : list K) (s : list bool) : reps 1088 l (fun i => nth i s false) -> length s = 1088%nat ->
    srep (absorb (repeat 0 1600) l) (keccak_f (of_string (s ++ repeat false 512))).
  Proof.
    intros H Ls. unfold absorb. apply keccakf_ok, srep_string.
    set (ls := map (fun i => xor_array (lane i (repeat 0 1600)) (lane i l)) (seq 0 17)).
    assert (RL : forall k, (k < length ls)%nat -> reps 64 (nth k ls []) (fun z => nth (64 * k + z) s false)).
    { unfold ls. rewrite map_length, seq_length. intros k Hk. rewrite nth_map_seq by exact Hk.
      apply (reps_ext 64 _ _ _ (reps_xor 64 _ _ _ _ (reps_lane 1600 _ _ k (reps_zero 1600) ltac:(lia))
        (reps_lane 1088 l _ k H ltac:(lia)))). intros z _. apply xorb_false_l. }
    pose proof (reps_concat ls (fun k z => nth (64 * k + z) s false) RL) as R1.
    replace (64 * length ls)%nat with 1088%nat in R1 by (unfold ls; rewrite map_length, seq_length; reflexivity).
    pose proof (reps_skipn 1600 _ _ 1088 (reps_zero 1600) ltac:(lia)) as R2.
    apply (reps_ext _ _ _ _ (reps_app 1088 (1600 - 1088) _ _ _ _ R1 R2)). intros i Hi. cbv beta.
    destruct (Nat.ltb_spec i 1088) as [Hl|Hl].
    - rewrite <- (Nat.div_mod i 64) by lia. rewrite app_nth1 by lia. reflexivity.
    - rewrite app_nth2 by lia. symmetry. apply nth_repeat.
  Qed.

  Theorem keccak_ok (m : list bool) : (length m <= 1080)%nat ->
    keccak (length m) 256 (map bo m) = map bo (keccak256 m).
  Proof.
    intro Hm. unfold keccak, squeeze, final, keccak256, to_string. cbv zeta. apply reps_list.
    apply (reps_firstn 1600); [|lia]. apply absorb_ok; [apply pad_ok; exact Hm|].
    rewrite !app_length, repeat_length. cbn [length]. lia.
  Qed.

  (** the step mappings as functions on 1600-bit strings *)
  Lemma step_string (g : list K -> list K) (f : kstate -> kstate) (s : list bool) :
    (forall l A, srep l A -> srep (g l) (f A)) -> length s = 1600%nat ->
    g (map bo s) = map bo (to_string 1600 (f (of_string s))).
  Proof.
    intros H Ls. unfold to_string. apply reps_list. apply H, srep_string.
    pose proof (reps_bits s) as R. rewrite Ls in R. exact R.
  Qed.
  Theorem steps_ok (s : list bool) : length s = 1600%nat ->
    theta (map bo s) = map bo (to_string 1600 (k_theta (of_string s))) /\
    rhopi (map bo s) = map bo (to_string 1600 (k_pi (k_rho (of_string s)))) /\
    chi (map bo s) = map bo (to_string 1600 (k_chi (of_string s))) /\
    (forall r, (r < 24)%nat -> iota r (map bo s) = map bo (to_string 1600 (k_iota r (of_string s)))) /\
    keccakf (map bo s) = map bo (to_string 1600 (keccak_f (of_string s))).
  Proof.
    intro Ls.
    exact (conj (step_string _ _ s theta_ok Ls) (conj (step_string _ _ s rhopi_ok Ls) (conj (step_string _ _ s chi_ok Ls)
      (conj (fun r Hr => step_string _ _ s (fun l A => iota_ok r l A Hr) Ls) (step_string _ _ s keccakf_ok Ls))))).
  Qed.
End Sponge.

(** ** addresses *)
Local Open Scope Z_scope.
Local Notation bp := (@bit_of Fp).

Lemma bit_of_fp b : bp b = fp (Z.b2z b).
Proof. destruct b; reflexivity. Qed.
Lemma lc_bits (l : list bool) : forall e, lc (fp e) (map bp l) = fp (e * bits_num l).
Proof.
  induction l as [|b l IH]; intro e; [cbn [map lc bits_num]; rewrite Z.mul_0_r; reflexivity|].
  cbn [map lc bits_num]. rewrite <- fp_add, IH, bit_of_fp, <- fp_mul, <- fp_add. f_equal. ring.
Qed.
Lemma bits_num_app a b : bits_num (a ++ b) = bits_num a + 2 ^ Z.of_nat (length a) * bits_num b.
Proof.
  induction a as [|x a IH]; [cbn [app bits_num length]; rewrite Z.pow_0_r; ring|].
  cbn [app bits_num length]. rewrite IH, Nat2Z.inj_succ, Z.pow_succ_r by lia. ring.
Qed.
Lemma bits_num_bound l : 0 <= bits_num l < 2 ^ Z.of_nat (length l).
Proof.
  induction l as [|x l IH]; [cbn; lia|]. cbn [bits_num length]. rewrite Nat2Z.inj_succ, Z.pow_succ_r by lia.
  destruct x; cbn [Z.b2z]; lia.
Qed.
(** little-endian bytes *)
Fixpoint le256 (l : list Z) : Z := match l with [] => 0 | b :: t => b + 256 * le256 t end.
Lemma bits_num_flat (g : nat -> list bool) l : (forall i, length (g i) = 8%nat) ->
  bits_num (flat_map g l) = le256 (map (fun i => bits_num (g i)) l).
Proof.
  intro L. induction l as [|i l IH]; [reflexivity|]. cbn [flat_map map le256]. rewrite bits_num_app, IH, L. reflexivity.
Qed.

Lemma flat_map_length8 {A} (g : nat -> list A) l : (forall i, length (g i) = 8%nat) -> length (flat_map g l) = (8 * length l)%nat.
Proof. intro L. induction l as [|i l IH]; [reflexivity|]. cbn [flat_map length]. rewrite app_length, IH, L. lia. Qed.

Definition addr_bits (d : list bool) : list bool :=
  flat_map (fun i => map (fun j => nth (256 - 8 * (i + 1) + j) d false) (seq 0 8)) (seq 0 20).
Lemma slice8 (d : list bool) k : (k + 8 <= length d)%nat ->
  firstn 8 (skipn k d) = map (fun j => nth (k + j) d false) (seq 0 8).
Proof.
  intro H. apply (nth_ext _ _ false false).
  - rewrite firstn_length, skipn_length, map_length, seq_length. lia.
  - intros i Hi. rewrite firstn_length in Hi. rewrite nth_firstn by lia. rewrite nth_skipn, nth_map_seq by lia. reflexivity.
Qed.
Lemma addr_num (d : list bool) : length d = 256%nat ->
  bits_num (addr_bits d) = be_num (skipn 12 (bytes_of_bits 32 d)).
Proof.
  intro L. unfold addr_bits. rewrite bits_num_flat by (intro; rewrite map_length; apply seq_length).
  unfold bytes_of_bits.
  replace (map (fun i => bits_num (firstn 8 (skipn (8 * i) d))) (seq 0 32))
    with (map (fun i => bits_num (map (fun j => nth (8 * i + j) d false) (seq 0 8))) (seq 0 32)).
  2:{ apply map_ext_in. intros i Hi. apply in_seq in Hi. rewrite slice8 by lia. reflexivity. }
  set (B := fun k => bits_num (map (fun j => nth (k + j) d false) (seq 0 8))).
  change (le256 (map (fun i => B (256 - 8 * (i + 1))%nat) (seq 0 20)) = be_num (skipn 12 (map (fun i => B (8 * i)%nat) (seq 0 32)))).
  cbn [seq map skipn be_num fold_left le256 Nat.add Nat.mul Nat.sub]. unfold be_num. cbn [fold_left].
  generalize (B 96%nat) (B 104%nat) (B 112%nat) (B 120%nat) (B 128%nat) (B 136%nat) (B 144%nat) (B 152%nat) (B 160%nat) (B 168%nat)
    (B 176%nat) (B 184%nat) (B 192%nat) (B 200%nat) (B 208%nat) (B 216%nat) (B 224%nat) (B 232%nat) (B 240%nat) (B 248%nat).
  intros. ring.
Qed.

Lemma be_bytes_bit X i j : (i < 32)%nat -> (j < 8)%nat ->
  Z.testbit (nth i (be_bytes 32 X) 0) (Z.of_nat j) = Z.testbit X (Z.of_nat (248 - 8 * i + j)).
Proof.
  intros Hi Hj. unfold be_bytes. rewrite nth_map_seq by exact Hi. cbv beta.
  change 256 with (2 ^ 8). rewrite <- Z.pow_mul_r by lia.
  rewrite Z.mod_pow2_bits_low by lia. rewrite Z.div_pow2_bits by lia. f_equal. lia.
Qed.

Lemma zbits_bit_nth n v i : (i < n)%nat -> nth i (zbits n v) f0 = bp (Z.testbit v (Z.of_nat i)).
Proof. intro Hi. unfold zbits. rewrite nth_map_seq by exact Hi. symmetry. apply bit_of_fp. Qed.

(** the message given to Keccak *)
Lemma key_message X Y :
  flat_map (fun i => map (fun j => nth (8 * i + (7 - j)) (map (fun i => nth (511 - i) (zbits 256 Y ++ zbits 256 X) f0) (seq 0 512)) f0) (seq 0 8)) (seq 0 64)
  = map bp (flat_map byte_bits (be_bytes 32 X ++ be_bytes 32 Y)).
Proof.
  assert (E : be_bytes 32 X ++ be_bytes 32 Y = map (fun i => nth i (be_bytes 32 X ++ be_bytes 32 Y) 0) (seq 0 64)).
  { apply (nth_ext _ _ 0 0); [rewrite app_length, !map_length, !seq_length; reflexivity|].
    intros i Hi. rewrite app_length in Hi. unfold be_bytes in Hi. rewrite !map_length, !seq_length in Hi.
    rewrite nth_map_seq by exact Hi. reflexivity. }
  replace (flat_map byte_bits (be_bytes 32 X ++ be_bytes 32 Y))
    with (flat_map byte_bits (map (fun i => nth i (be_bytes 32 X ++ be_bytes 32 Y) 0) (seq 0 64)))
    by (rewrite <- E; reflexivity).
  clear E. rewrite !flat_map_concat_map, concat_map. apply f_equal.
  rewrite (map_map (fun i => nth i (be_bytes 32 X ++ be_bytes 32 Y) 0) byte_bits).
  rewrite (map_map (fun i => byte_bits (nth i (be_bytes 32 X ++ be_bytes 32 Y) 0)) (map bp)).
  apply map_ext_in. intros i Hi. apply in_seq in Hi. unfold byte_bits. rewrite map_map.
  apply map_ext_in. intros j Hj. apply in_seq in Hj.
  rewrite nth_map_seq by lia.
  assert (LY : length (zbits 256 Y) = 256%nat) by (unfold zbits; rewrite map_length; apply seq_length).
  assert (LB : length (be_bytes 32 X) = 32%nat) by (unfold be_bytes; rewrite map_length; apply seq_length).
  destruct (Nat.ltb_spec i 32) as [Hl|Hl].
  - rewrite app_nth2 by lia. rewrite LY, zbits_bit_nth by lia.
    rewrite app_nth1 by lia. rewrite be_bytes_bit by lia. do 2 f_equal. lia.
  - rewrite app_nth1 by lia. rewrite zbits_bit_nth by lia.
    rewrite app_nth2 by lia. rewrite LB, be_bytes_bit by lia. do 2 f_equal. lia.
Qed.

Lemma keccak256_length m : length (keccak256 m) = 256%nat.
Proof. unfold keccak256, to_string. rewrite map_length. apply seq_length. Qed.

Lemma address_digest (m : list bool) : length m = 512%nat ->
  bits2num (flat_map (fun i => map (fun j => nth (256 - 8 * (i + 1) + j) (keccak 512 256 (map bp m)) f0) (seq 0 8)) (seq 0 20)) =
  fp (be_num (skipn 12 (bytes_of_bits 32 (keccak256 m)))).
Proof.
  intro Lm. pose proof (@keccak_ok Fp m ltac:(rewrite Lm; lia)) as KE. rewrite Lm in KE. rewrite KE.
  pose proof (keccak256_length m) as LD. generalize dependent (keccak256 m). intros d _ LD.
  replace (flat_map (fun i => map (fun j => nth (256 - 8 * (i + 1) + j) (map bp d) f0) (seq 0 8)) (seq 0 20))
    with (map bp (addr_bits d)).
  - unfold bits2num. rewrite <- fp_1, lc_bits, Z.mul_1_l. apply f_equal. apply addr_num, LD.
  - unfold addr_bits. rewrite !flat_map_concat_map, concat_map, map_map. apply f_equal. apply map_ext. intro i.
    rewrite map_map. apply map_ext. intro j. symmetry. exact (map_nth bp d false _).
Qed.
Lemma key_length X Y : length (flat_map byte_bits (be_bytes 32 X ++ be_bytes 32 Y)) = 512%nat.
Proof.
  assert (LB : forall l, length (flat_map byte_bits l) = (8 * length l)%nat).
  { induction l as [|b l IH]; [reflexivity|]. cbn [flat_map length]. rewrite app_length, IH.
    unfold byte_bits at 1. rewrite map_length, seq_length. lia. }
  rewrite LB, app_length. unfold be_bytes. rewrite !map_length, !seq_length. reflexivity.
Qed.
Theorem address_ok X Y : pubkey_to_address (zbits 256 Y ++ zbits 256 X) = fp (eth_address X Y).
Proof.
  unfold pubkey_to_address. cbv zeta. rewrite key_message. unfold eth_address.
  apply address_digest, key_length.
Qed.
Lemma address_bound X Y : 0 <= eth_address X Y < 2 ^ 160.
Proof.
  unfold eth_address. rewrite <- addr_num by apply keccak256_length.
  pose proof (bits_num_bound (addr_bits (keccak256 (flat_map byte_bits (be_bytes 32 X ++ be_bytes 32 Y))))) as B.
  replace (length (addr_bits (keccak256 (flat_map byte_bits (be_bytes 32 X ++ be_bytes 32 Y))))) with 160%nat in B; [exact B|].
  symmetry. unfold addr_bits. rewrite flat_map_length8 by (intro; rewrite map_length; apply seq_length).
  rewrite seq_length. reflexivity.
Qed.

(** ** the address templates *)
Lemma to_addr_iff w s Tx Ty Ux Uy a : eff_ecdsa_to_addr w s Tx Ty Ux Uy = Some a <->
  exists Q X Y, eff_ecdsa (ad_ecdsa w) s Tx Ty Ux Uy = Some Q /\ 0 <= X < 2 ^ 256 /\ 0 <= Y < 2 ^ 256 /\
    Q = (fp X, fp Y) /\ ad_x w = zbits 256 X /\ ad_y w = zbits 256 Y /\ a = fp (eth_address X Y).
Proof.
  unfold eff_ecdsa_to_addr. split.
  - destruct (eff_ecdsa (ad_ecdsa w) s Tx Ty Ux Uy) as [[qx qy]|]; [|discriminate].
    destruct (num2bits 256 (ad_x w) (fst (qx, qy))) as [xb|] eqn:EX; [|discriminate].
    destruct (num2bits 256 (ad_y w) (snd (qx, qy))) as [yb|] eqn:EY; [|discriminate].
    apply num2bits_iff in EX. destruct EX as (-> & X & RX & WX & FX).
    apply num2bits_iff in EY. destruct EY as (-> & Y & RY & WY & FY).
    intro E. apply (f_equal (fun o => match o with Some z => z | None => f0 end)) in E.
    cbn [fst snd] in FX, FY. exists (qx, qy), X, Y. rewrite WX, WY in E. rewrite address_ok in E.
    exact (conj eq_refl (conj RX (conj RY (conj (f_equal2 pair FX FY) (conj WX (conj WY (eq_sym E))))))).
  - intros (Q & X & Y & E & RX & RY & EQ & WX & WY & ->). rewrite E, WX, WY, EQ. cbn [fst snd].
    rewrite !num2bits_zbits by assumption. rewrite address_ok. reflexivity.
Qed.

Lemma addr_inv nl w s root Tx Ty Ux Uy path sibs :
  addr_membership nl w s root Tx Ty Ux Uy path sibs = true <->
  exists a, eff_ecdsa_to_addr w s Tx Ty Ux Uy = Some a /\ merkle pos2 nl a path sibs = Some root.
Proof.
  unfold addr_membership. destruct (eff_ecdsa_to_addr w s Tx Ty Ux Uy) as [a|].
  - rewrite (merkle_ext cc_poseidon pos2) by exact cc_poseidon_ok. split.
    + destruct (merkle pos2 nl a path sibs) as [r|] eqn:E; [|discriminate]. intro B.
      apply feqb_true in B. subst r. exists a. split; [reflexivity|exact E].
    + intros (a' & E & M). injection E as <-. rewrite M. apply feqb_refl.
  - split; [discriminate|]. intros (a' & E & _). discriminate.
Qed.

(** 256-bit strings that name a coordinate *)
Lemma decomposition (x : Fp) X : 0 <= X < 2 ^ 256 -> fp X = x -> X = zval x \/ X = zval x + p /\ zval x < 2 ^ 256 - p.
Proof.
  intros R E. apply (f_equal zval) in E. change (zval (fp X)) with (X mod p) in E.
  pose proof (Z.div_mod X p ltac:(discriminate)) as D. pose proof (Z.mod_pos_bound X p ltac:(reflexivity)) as B.
  assert (0 <= X / p < 2).
  { split; [apply Z.div_pos; [lia|reflexivity]|]. apply Z.div_lt_upper_bound; [reflexivity|]. rewrite p_val. lia. }
  assert (X / p = 0 \/ X / p = 1) as [H0|H0] by lia; rewrite H0 in D; [left|right]; lia.
Qed.

Theorem addr_sound nl w s m r x y ri Tx Ty path sibs (addrs : nat -> Z) :
  0 < r < n -> secp_point (Some (x, y)) -> zval x mod n = r -> (r * ri) mod n = 1 -> eff_T ri (Some (x, y)) = Some (Tx, Ty) ->
  (forall i, 0 <= addrs i < 2 ^ 160) ->
  let U := enc (eff_U ri m) in
  let leaves := fun i => fp (addrs i) in
  addr_membership nl w s (node pos2 leaves nl 0) Tx Ty (fst U) (snd U) path sibs = true ->
  exists bits X Y k, eff_ecdsa (ad_ecdsa w) s Tx Ty (fst U) (snd U) = Some (fp X, fp Y) /\ path = map bit_of bits /\
    (index_of bits < 2 ^ nl)%nat /\ 0 <= X < 2 ^ 256 /\ 0 <= Y < 2 ^ 256 /\ 0 <= k < 2 ^ 256 /\
    (addrs (index_of bits) = eth_address X Y \/
     collide pos2 (path_inputs pos2 (fp (eth_address X Y)) bits sibs)
       (path_inputs pos2 (leaves (index_of bits)) bits (siblings pos2 leaves 0 bits))) /\
    (let M := emul (2 ^ 256 + k) (Some (Tx, Ty)) in
     k <> kfree -> tail_ok k (Some (Tx, Ty)) -> M <> eff_U ri m \/ M = None -> ~ degenerate M (eff_U ri m) ->
     (2 ^ 256 + k) mod n <> 0 ->
     exists Q, (fp X, fp Y) = enc Q /\ ecdsa_ok Q m r ((2 ^ 256 + k) mod n)).
Proof.
  intros Hr SR Hx Hri HT Ha U leaves E. apply addr_inv in E. destruct E as (a & E & M).
  apply to_addr_iff in E. destruct E as (Q & X & Y & E & RX & RY & EQ & _ & _ & EA). subst Q.
  destruct (merkle_sound _ _ _ _ _ _ M) as (bits & P & B & L).
  destruct (eff_circuit_sound _ s m r x y ri Tx Ty _ Hr SR Hx Hri HT E) as (k & Hk & F).
  exists bits, X, Y, k. split; [exact E|]. split; [exact P|]. split; [exact B|]. split; [exact RX|]. split; [exact RY|]. split; [exact Hk|].
  split; [|exact F]. rewrite EA in L. destruct L as [L|L]; [left|right; exact L].
  assert (P160 : 2 ^ 160 < p) by reflexivity.
  pose proof (Ha (index_of bits)). pose proof (address_bound X Y).
  apply fp_inj; [lia|lia|]. symmetry. exact L.
Qed.

Theorem addr_complete (dv : Fp -> Fp -> Fp) nl Q m r s x y ri Tx Ty (addrs : nat -> Z) (i : nat) :
  division dv -> 0 < r < n -> 0 < s < n -> secp_point (Some (x, y)) -> zval x mod n = r -> (r * ri) mod n = 1 ->
  eff_T ri (Some (x, y)) = Some (Tx, Ty) -> Q = eadd (emul s (Some (Tx, Ty))) (eff_U ri m) ->
  ~ carry_lost s -> tail_ok ((s - 2 ^ 256) mod n) (Some (Tx, Ty)) -> ~ degenerate (emul s (Some (Tx, Ty))) (eff_U ri m) ->
  (i < 2 ^ nl)%nat -> addrs i = eth_address (zval (fst (enc Q))) (zval (snd (enc Q))) ->
  let U := enc (eff_U ri m) in
  let leaves := fun i => fp (addrs i) in
  exists w bits, length bits = nl /\ index_of bits = i /\
    addr_membership nl w (fp s) (node pos2 leaves nl 0) Tx Ty (fst U) (snd U)
      (map bit_of bits) (siblings pos2 leaves 0 bits) = true.
Proof.
  intros Hd Hr Hs SR Hx Hri HT HQ Hc Ht Hg Hi Hk U leaves.
  destruct (merkle_every_leaf pos2 leaves nl i Hi) as (bits & L & E & Mk).
  exists (MkAddr (h_eff dv (fp s) Tx Ty (fst U) (snd U)) (zbits 256 (zval (fst (enc Q)))) (zbits 256 (zval (snd (enc Q))))), bits.
  split; [exact L|]. split; [exact E|]. apply addr_inv. exists (leaves i). split; [|exact Mk].
  apply to_addr_iff. exists (enc Q), (zval (fst (enc Q))), (zval (snd (enc Q))). cbn [ad_ecdsa ad_x ad_y].
  assert (PL : p < 2 ^ 256) by reflexivity.
  split; [exact (proj2 (eff_circuit_complete dv Q m r s x y ri Tx Ty Hd Hr Hs SR Hx Hri HT HQ Hc Ht Hg))|].
  pose proof (zval_range p (fst (enc Q))). pose proof (zval_range p (snd (enc Q))).
  split; [lia|]. split; [lia|]. split; [rewrite !fp_zval; apply surjective_pairing|].
  split; [reflexivity|]. split; [reflexivity|]. unfold leaves. rewrite Hk. reflexivity.
Qed.

(** the decomposition is ambiguous for small coordinates *)
Theorem addr_ambiguous e s Tx Ty Ux Uy qx qy : eff_ecdsa e s Tx Ty Ux Uy = Some (qx, qy) -> zval qx < 2 ^ 256 - p ->
  exists w1 w2, ad_ecdsa w1 = e /\ ad_ecdsa w2 = e /\
    eff_ecdsa_to_addr w1 s Tx Ty Ux Uy = Some (fp (eth_address (zval qx) (zval qy))) /\
    eff_ecdsa_to_addr w2 s Tx Ty Ux Uy = Some (fp (eth_address (zval qx + p) (zval qy))).
Proof.
  intros E L. exists (MkAddr e (zbits 256 (zval qx)) (zbits 256 (zval qy))), (MkAddr e (zbits 256 (zval qx + p)) (zbits 256 (zval qy))).
  split; [reflexivity|]. split; [reflexivity|].
  assert (PL : p < 2 ^ 256) by reflexivity. assert (P0 : 0 < p) by reflexivity.
  pose proof (zval_range p qx). pose proof (zval_range p qy).
  split; apply to_addr_iff; cbn [ad_ecdsa ad_x ad_y].
  - exists (qx, qy), (zval qx), (zval qy). split; [exact E|]. split; [lia|]. split; [lia|].
    split; [rewrite !fp_zval; reflexivity|]. repeat split.
  - exists (qx, qy), (zval qx + p), (zval qy). split; [exact E|]. split; [lia|]. split; [lia|].
    split; [|repeat split]. rewrite fp_add. rewrite !fp_zval. f_equal.
    transitivity (fadd qx (fp 0)); [destruct (Field_theory.F_R (fth Fp)); rewrite Radd_comm; symmetry; apply Radd_0_l|].
    f_equal. apply fp_eq. reflexivity.
Qed.
