(** Proofs about the conversions of utils.ts. *)
From Coq Require Import ZArith List Bool Lia Arith.
From Verif Require Import Base Primes Field Zq TsModel TsSpec TsProofs ReadSpec UtilModel.
Import ListNotations.
Local Open Scope Z_scope.

Lemma to_bytes k n : 0 <= n < 256 ^ Z.of_nat k -> bigIntToBytes n k = be_string k n /\ bigIntToLeBytes n k = le_string k n.
Proof.
  intro Hn. assert (X : bigIntToBytes n k = be_string k n); [|split; [exact X|unfold bigIntToLeBytes; rewrite X; reflexivity]].
  destruct k as [|k]; [|apply bigIntToBytes_ok; [lia|exact Hn]].
  change (256 ^ Z.of_nat 0) with 1 in Hn. replace n with 0 by lia. reflexivity.
Qed.
Lemma rev_bytes b : is_bytes b -> is_bytes (rev b).
Proof. intro H. apply Forall_forall. intros x Hx. apply in_rev in Hx. revert x Hx. apply Forall_forall. exact H. Qed.
Lemma from_bytes b : is_bytes b -> b <> [] -> bytesToBigInt b = Ok (be_value b) /\ bytesLeToBigInt b = Ok (be_value (rev b)).
Proof.
  intros H N. unfold bytesLeToBigInt. rewrite !bytesToBigInt_ok by (try apply rev_bytes; exact H). split.
  - destruct b; [congruence|reflexivity].
  - destruct (rev b) as [|x t] eqn:R; [|reflexivity]. apply (f_equal (@rev Z)) in R. rewrite rev_involutive in R. cbn in R. congruence.
Qed.
Lemma round_number k n : (0 < k)%nat -> 0 <= n < 256 ^ Z.of_nat k ->
  bytesToBigInt (bigIntToBytes n k) = Ok n /\ bytesLeToBigInt (bigIntToLeBytes n k) = Ok n.
Proof.
  intros Hk Hn. unfold bytesLeToBigInt, bigIntToLeBytes. rewrite rev_involutive.
  destruct (to_bytes k n Hn) as [-> _]. split; apply decode_be; assumption.
Qed.
Lemma round_bytes b : is_bytes b -> b <> [] ->
  (exists n, bytesToBigInt b = Ok n /\ bigIntToBytes n (length b) = b) /\
  (exists n, bytesLeToBigInt b = Ok n /\ bigIntToLeBytes n (length b) = b).
Proof.
  intros H N. destruct (from_bytes b H N) as [E1 E2]. split; eexists.
  - split; [exact E1|]. rewrite (proj1 (to_bytes _ _ (be_value_range b H))). apply be_string_value, H.
  - split; [exact E2|]. pose proof (be_value_range _ (rev_bytes b H)) as R. rewrite rev_length in R. unfold bigIntToLeBytes.
    rewrite (proj1 (to_bytes _ _ R)). rewrite <- (rev_length b). rewrite be_string_value by (apply rev_bytes, H). apply rev_involutive.
Qed.

(** * numbers that do not fit *)
Lemma from_hex_zeros s : forall m, s <> [] -> hd 0 s = -1 ->
  from_hex (repeat 0 m ++ s) = repeat 0 (m / 2).
Proof.
  assert (X : forall k m, (m <= k)%nat -> s <> [] -> hd 0 s = -1 -> from_hex (repeat 0 m ++ s) = repeat 0 (m / 2)).
  { induction k as [|k IH]; intros m L N Hd.
    - replace m with 0%nat by lia. destruct s as [|a [|b t]]; [congruence|reflexivity|]. cbn in Hd. subst a. reflexivity.
    - destruct m as [|[|m]].
      + apply IH; (lia || assumption).
      + destruct s as [|a t]; [congruence|]. cbn in Hd. subst a. reflexivity.
      + cbn [repeat app from_hex]. change (is_digit 0 && is_digit 0) with true. cbv iota. rewrite IH by (lia || assumption).
        replace (S (S m)) with (m + 1 * 2)%nat by lia. rewrite Nat.div_add by lia. rewrite Nat.add_comm. reflexivity. }
  intros m. exact (X m m (le_n _)).
Qed.
Lemma rev_repeat {A} (a : A) k : rev (repeat a k) = repeat a k.
Proof.
  induction k as [|k IH]; [reflexivity|]. cbn [repeat rev]. rewrite IH.
  clear IH. induction k as [|k IH]; [reflexivity|]. cbn [repeat app]. now rewrite IH.
Qed.
Lemma negative k n : n < 0 -> (0 < k)%nat -> exists j, (j < k)%nat /\ bigIntToBytes n k = repeat 0 j /\ bigIntToLeBytes n k = repeat 0 j.
Proof.
  intros Hn Hk. unfold bigIntToLeBytes, bigIntToBytes, pad_start.
  assert (E : to_hex n = -1 :: to_hex (- n)).
  { unfold to_hex. destruct (Z.ltb_spec n 0); [|lia]. destruct (Z.ltb_spec (- n) 0); [lia|reflexivity]. }
  rewrite E. exists ((k * 2 - length ((-1)%Z :: to_hex (- n)%Z)) / 2)%nat.
  assert (X := from_hex_zeros (-1 :: to_hex (- n)) (k * 2 - length ((-1)%Z :: to_hex (- n)%Z)) ltac:(discriminate) eq_refl).
  rewrite X, rev_repeat. split; [|split; reflexivity]. apply Nat.div_lt_upper_bound; [lia|]. cbn [length]. lia.
Qed.

Lemma from_hex_odd k : forall s d, length s = (2 * k)%nat -> digits s -> from_hex (s ++ [d]) = from_hex s.
Proof.
  induction k as [|k IH]; intros s d L D.
  - destruct s; [reflexivity|discriminate].
  - destruct s as [|a [|b t]]; try (cbn in L; lia). cbn [app from_hex]. inversion D as [|? ? ? D1]; subst. inversion D1; subst.
    rewrite IH; [reflexivity|cbn in L; lia|assumption].
Qed.
Lemma digits_length s k : digits s -> 16 ^ Z.of_nat k <= hv s -> (k < length s)%nat.
Proof.
  intros D H. destruct (Nat.ltb_spec k (length s)) as [L|L]; [exact L|]. exfalso.
  pose proof (hv_range s D). pose proof (Z.pow_le_mono_r 16 (Z.of_nat (length s)) (Z.of_nat k) ltac:(lia) ltac:(lia)). lia.
Qed.
Lemma overflow k n : (0 < k)%nat -> 256 ^ Z.of_nat k <= n < 16 * 256 ^ Z.of_nat k -> bigIntToBytes n k = bigIntToBytes (n / 16) k.
Proof.
  intros Hk Hn. assert (P : 0 < 256 ^ Z.of_nat k) by (apply Z.pow_pos_nonneg; lia).
  destruct (to_hex_ok n ltac:(lia)) as (D & V & L).
  assert (L1 : (length (to_hex n) <= S (2 * k))%nat).
  { apply L; [lia|]. rewrite Nat2Z.inj_succ, Z.pow_succ_r, pow16_256 by lia. lia. }
  assert (L2 : (2 * k < length (to_hex n))%nat).
  { apply digits_length; [exact D|]. rewrite pow16_256, V. lia. }
  assert (H16 : 0 <= n / 16 < 256 ^ Z.of_nat k) by (split; [apply Z.div_pos; lia|apply Z.div_lt_upper_bound; lia]).
  rewrite (bigIntToBytes_ok k (n / 16) Hk H16). unfold bigIntToBytes, pad_start.
  replace (k * 2 - length (to_hex n))%nat with 0%nat by lia. cbn [repeat app].
  destruct (exists_last (l := to_hex n)) as (s & d & E); [intro Z0; rewrite Z0 in L2; cbn in L2; lia|].
  rewrite E in D, V, L1, L2 |- *. rewrite app_length in L1, L2. cbn [length] in L1, L2.
  apply Forall_app in D. destruct D as [D Dd]. assert (Hd : 0 <= d < 16) by (inversion Dd; assumption).
  rewrite (from_hex_odd k) by (assumption || lia). rewrite (from_hex_ok k) by (assumption || lia). f_equal.
  unfold hv in V |- *. rewrite fold_left_app in V. cbn [fold_left] in V.
  set (q := fold_left _ s 0) in *. rewrite <- V. rewrite (Z.mul_comm 16), Z.div_add_l by lia. rewrite (Z.div_small d) by lia. lia.
Qed.
(** one byte too few for v *)
Lemma overflow_alias k n d : (0 < k)%nat -> 16 * n + d < 16 * 256 ^ Z.of_nat k -> 256 ^ Z.of_nat k <= 16 * n -> 0 <= d < 16 ->
  bigIntToBytes (16 * n + d) k = bigIntToBytes n k.
Proof.
  intros Hk H1 H2 Hd. rewrite overflow by lia. f_equal. rewrite (Z.mul_comm 16), Z.div_add_l, (Z.div_small d) by lia. lia.
Qed.

(** * fromSig *)
Definition rec_value (v : Z) : Z := if v <? 27 then v + 27 else v.
Lemma hex_bytes b : is_bytes b -> b <> [] -> bigint_of_hex (buffer_hex b) = Ok (be_value b).
Proof. intros H N. exact (proj1 (from_bytes b H N)). Qed.
Lemma sig_long r s v t : u256 r -> u256 s -> 0 <= v < 256 -> is_bytes t ->
  fromSig (be_string 32 r ++ be_string 32 s ++ v :: t) = Ok (r, s, rec_value (be_value (v :: t))).
Proof.
  intros Hr Hs Hv Ht. unfold fromSig, fromRpcSig. set (R := be_string 32 r). set (S := be_string 32 s).
  assert (LR : length R = 32%nat) by apply be_string_length. assert (LS : length S = 32%nat) by apply be_string_length.
  assert (LL : length (R ++ S ++ v :: t) = (65 + length t)%nat) by (rewrite !app_length, LR, LS; reflexivity).
  rewrite LL. change (Nat.leb 65 (65 + length t)) with true. cbv iota.
  replace (skipn 64 (R ++ S ++ v :: t)) with (v :: t) by (rewrite !skipn_app, LR, LS, !skipn_all2 by lia; reflexivity).
  rewrite (proj1 (from_bytes (v :: t) ltac:(constructor; assumption) ltac:(discriminate))). cbn [bind].
  replace (js_slice 0 32 (R ++ S ++ v :: t)) with R by (unfold js_slice; cbn [skipn]; rewrite firstn_app, LR, firstn_all2 by lia; now rewrite app_nil_r).
  replace (js_slice 32 64 (R ++ S ++ v :: t)) with S by (unfold js_slice; rewrite skipn_app, LR, skipn_all2 by lia; change (32 - 32)%nat with 0%nat; cbn [skipn app]; rewrite firstn_app, LS, firstn_all2 by lia; now rewrite app_nil_r).
  rewrite !hex_bytes; try apply be_string_bytes.
  - cbn [bind]. unfold R, S. rewrite !be_value_string, !Z.mod_small by assumption. reflexivity.
  - intro Z0. rewrite Z0 in LS. discriminate.
  - intro Z0. rewrite Z0 in LR. discriminate.
Qed.
Lemma sig_compact r s par : u256 r -> 0 <= s < 2 ^ 255 ->
  fromSig (be_string 32 r ++ be_string 32 (s + (if par : bool then 2 ^ 255 else 0))) = Ok (r, s, if par then 28 else 27).
Proof.
  intros Hr Hs. unfold fromSig, fromRpcSig. set (R := be_string 32 r). set (w := s + (if par then 2 ^ 255 else 0)). set (S := be_string 32 w).
  assert (LR : length R = 32%nat) by apply be_string_length. assert (LS : length S = 32%nat) by apply be_string_length.
  assert (LL : length (R ++ S) = 64%nat) by (rewrite !app_length, LR, LS; reflexivity). rewrite LL.
  change (Nat.leb 65 64) with false. change (Nat.eqb 64 64) with true. cbv iota zeta.
  replace (js_slice 0 32 (R ++ S)) with R by (unfold js_slice; cbn [skipn]; rewrite firstn_app, LR, firstn_all2 by lia; now rewrite app_nil_r).
  replace (js_slice 32 64 (R ++ S)) with S by (unfold js_slice; rewrite skipn_app, LR, skipn_all2 by lia; change (32 - 32)%nat with 0%nat; cbn [skipn app]; now rewrite firstn_all2 by lia).
  rewrite app_nth2, LR by lia. change (32 - 32)%nat with 0%nat.
  assert (ES : S = (w / 256 ^ 31) mod 256 :: be_string 31 w) by reflexivity. rewrite ES. cbn [nth bind].
  assert (W1 : w / 256 ^ 31 = s / 256 ^ 31 + (if par then 128 else 0)).
  { unfold w. destruct par; [|rewrite !Z.add_0_r; reflexivity]. change (2 ^ 255) with (128 * 256 ^ 31). rewrite Z.div_add by lia. reflexivity. }
  assert (S1 : 0 <= s / 256 ^ 31 < 128) by (split; [apply Z.div_pos; lia|apply Z.div_lt_upper_bound; [lia|exact (proj2 Hs)]]).
  rewrite W1. set (q := s / 256 ^ 31) in *.
  assert (M1 : (q + (if par then 128 else 0)) mod 256 = q + (if par then 128 else 0)) by (apply Z.mod_small; destruct par; lia). rewrite M1.
  assert (M2 : (q + (if par then 128 else 0)) mod 128 = q).
  { destruct par; [replace (q + 128) with (q + 1 * 128) by lia; rewrite Z.mod_add by lia|rewrite Z.add_0_r]; apply Z.mod_small; lia. }
  rewrite M2. rewrite Z.shiftr_div_pow2 by lia. change (2 ^ 7) with 128.
  assert (M3 : (q + (if par then 128 else 0)) / 128 = if par then 1 else 0).
  { destruct par; [replace (q + 128) with (q + 1 * 128) by lia; rewrite Z.div_add by lia|rewrite Z.add_0_r]; rewrite Z.div_small by lia; reflexivity. }
  rewrite M3. rewrite !hex_bytes; try apply be_string_bytes.
  - cbn [bind be_value]. rewrite be_string_length. unfold R. rewrite !be_value_string, (Z.mod_small r) by exact Hr.
    assert (M4 : w mod 256 ^ Z.of_nat 31 = s mod 256 ^ Z.of_nat 31).
    { unfold w. destruct par; [|now rewrite Z.add_0_r]. change (2 ^ 255) with (128 * 256 ^ Z.of_nat 31). apply Z.mod_add. lia. }
    rewrite M4. replace (q * 256 ^ Z.of_nat 31 + s mod 256 ^ Z.of_nat 31) with s.
    + destruct par; reflexivity.
    + unfold q. change (Z.of_nat 31) with 31. rewrite (Z.mul_comm (s / _)). apply Z.div_mod. lia.
  - constructor; [lia|apply be_string_bytes].
  - discriminate.
  - intro Z0. rewrite Z0 in LR. discriminate.
Qed.
Lemma sig_short b : (length b < 64)%nat -> fromSig b = Panic.
Proof.
  intro L. unfold fromSig, fromRpcSig. replace (Nat.leb 65 (length b)) with false by (symmetry; apply Nat.leb_gt; lia).
  replace (Nat.eqb (length b) 64) with false by (symmetry; apply Nat.eqb_neq; lia). reflexivity.
Qed.
(** the recovery byte of the wire format *)
Lemma sig_wire_byte v : 256 <= v < 4096 -> bigIntToBytes v 1 = [v / 16].
Proof.
  intro H. rewrite (overflow 1 v) by (try lia; change (256 ^ Z.of_nat 1) with 256; lia).
  assert (B : 0 <= v / 16 < 256) by (split; [apply Z.div_pos; lia|apply Z.div_lt_upper_bound; lia]).
  rewrite bigIntToBytes_ok by (try lia; exact B). cbn [be_string]. change (256 ^ Z.of_nat 0) with 1. rewrite Z.div_1_r, Z.mod_small by lia. reflexivity.
Qed.
Lemma sig_wire r v m c : 256 <= v < 4096 -> pi_serialize (MkPI r v m c) = pi_serialize (MkPI r (v / 16) m c).
Proof. intro H. unfold pi_serialize. cbn [pi_circuit pi_msgHash pi_r pi_rV]. rewrite (overflow 1 v) by (try lia; change (256 ^ Z.of_nat 1) with 256; lia). reflexivity. Qed.
Lemma from_bytes_all b : is_bytes b ->
  (b <> [] -> bytesToBigInt b = Ok (be_value b) /\ bytesLeToBigInt b = Ok (be_value (rev b))) /\
  (b = [] -> bytesToBigInt b = Panic /\ bytesLeToBigInt b = Panic).
Proof. intro H. split; [apply from_bytes, H|]. intros ->. split; reflexivity. Qed.
