(** Proofs about the TypeScript codecs. *)
From Coq Require Import ZArith List Bool Lia Arith.
From Verif Require Import Base Fermat Primes Field Zq CurveSpec Secp TsModel TsSpec.
Import ListNotations.
Local Open Scope Z_scope.

(** * Hexadecimal *)
Definition hv (s : list Z) : Z := fold_left (fun a d => 16 * a + d) s 0.
Definition digits (s : list Z) : Prop := Forall (fun d => 0 <= d < 16) s.

Lemma hv_acc s : forall a, fold_left (fun a d => 16 * a + d) s a = a * 16 ^ Z.of_nat (length s) + hv s.
Proof.
  unfold hv. induction s as [|d t IH]; intro a; cbn [fold_left length]; [change (16 ^ Z.of_nat 0) with 1; ring|].
  rewrite (IH (16 * a + d)), (IH (16 * 0 + d)), Nat2Z.inj_succ, Z.pow_succ_r by lia. ring.
Qed.
Lemma hv_cons d s : hv (d :: s) = d * 16 ^ Z.of_nat (length s) + hv s.
Proof. change (hv (d :: s)) with (fold_left (fun a d => 16 * a + d) s (16 * 0 + d)). rewrite hv_acc. ring. Qed.
Lemma hv_range s : digits s -> 0 <= hv s < 16 ^ Z.of_nat (length s).
Proof.
  induction 1 as [|d t Hd Ht IH]; [split; reflexivity || (cbn; lia)|].
  rewrite hv_cons. cbn [length]. rewrite Nat2Z.inj_succ, Z.pow_succ_r by lia. nia.
Qed.
Lemma hv_pad k s : hv (repeat 0 k ++ s) = hv s.
Proof. induction k as [|k IH]; [reflexivity|]. cbn [repeat app]. rewrite hv_cons, IH. ring. Qed.

Lemma hex_digits_ok fuel : forall n acc, 0 <= n < 2 ^ Z.of_nat fuel -> digits acc ->
  exists l, hex_digits fuel n acc = l ++ acc /\ digits l /\ hv l = n /\
    (forall k, (0 < k)%nat -> n < 16 ^ Z.of_nat k -> (length l <= k)%nat).
Proof.
  induction fuel as [|f IH]; intros n acc Hn Ha.
  - exists []. assert (n = 0) by (change (2 ^ Z.of_nat 0) with 1 in Hn; lia). subst n.
    split; [reflexivity|]. split; [constructor|]. split; [reflexivity|]. intros k _ _. cbn. lia.
  - cbn [hex_digits]. destruct (Z.ltb_spec n 16) as [L|L].
    + exists [n]. split; [reflexivity|]. split; [repeat constructor; lia|]. split; [cbn; ring|]. intros k Hk _. cbn. lia.
    + rewrite Nat2Z.inj_succ, Z.pow_succ_r in Hn by lia.
      assert (D := Z.div_mod n 16 ltac:(lia)). assert (M := Z.mod_pos_bound n 16 ltac:(lia)).
      assert (Q : 0 < n / 16) by (apply Z.div_str_pos; lia).
      destruct (IH (n / 16) (n mod 16 :: acc)) as (l & E & Dl & V & Ln); [split; [lia|]|constructor; assumption|].
      { apply Z.div_lt_upper_bound; [lia|]. nia. }
      exists (l ++ [n mod 16]). rewrite E, <- app_assoc. cbn [app]. split; [reflexivity|].
      split; [apply Forall_app; split; [exact Dl|constructor; [exact M|constructor]]|]. split.
      * unfold hv in *. rewrite fold_left_app. cbn [fold_left]. rewrite V. lia.
      * intros k Hk B. rewrite app_length. cbn [length]. destruct k as [|k]; [lia|].
        rewrite Nat2Z.inj_succ, Z.pow_succ_r in B by lia.
        assert (n / 16 < 16 ^ Z.of_nat k) by (apply Z.div_lt_upper_bound; lia).
        destruct k as [|k]; [change (16 ^ Z.of_nat 0) with 1 in *; lia|].
        specialize (Ln (S k) ltac:(lia) ltac:(assumption)). lia.
Qed.
Lemma to_hex_ok n : 0 <= n -> digits (to_hex n) /\ hv (to_hex n) = n /\
  (forall k, (0 < k)%nat -> n < 16 ^ Z.of_nat k -> (length (to_hex n) <= k)%nat).
Proof.
  intro H. unfold to_hex. destruct (Z.ltb_spec n 0); [lia|].
  destruct (hex_digits_ok (S (Z.to_nat (Z.log2 n))) n []) as (l & -> & A & B & C); [|constructor|].
  - split; [lia|]. rewrite Nat2Z.inj_succ, Z2Nat.id by apply Z.log2_nonneg.
    destruct (Z.eq_dec n 0) as [->|N]; [reflexivity|]. apply Z.log2_spec. lia.
  - rewrite app_nil_r. auto.
Qed.

Lemma pow16_256 k : 16 ^ Z.of_nat (2 * k) = 256 ^ Z.of_nat k.
Proof. rewrite Nat2Z.inj_mul, Z.pow_mul_r by lia. reflexivity. Qed.
Lemma be_string_mod k : forall v w, v mod 256 ^ Z.of_nat k = w mod 256 ^ Z.of_nat k -> be_string k v = be_string k w.
Proof.
  assert (X : forall k j v, (j < k)%nat -> (v / 256 ^ Z.of_nat j) mod 256 = ((v mod 256 ^ Z.of_nat k) / 256 ^ Z.of_nat j) mod 256).
  { clear. intros k j v L. replace (Z.of_nat k) with (Z.of_nat j + Z.of_nat (k - j)) by lia.
    rewrite Z.pow_add_r by lia. set (a := 256 ^ Z.of_nat j). assert (0 < a) by (apply Z.pow_pos_nonneg; lia).
    replace (Z.of_nat (k - j)) with (Z.succ (Z.of_nat (k - j - 1))) by lia. rewrite Z.pow_succ_r by lia.
    set (b := 256 ^ Z.of_nat (k - j - 1)). assert (0 < b) by (apply Z.pow_pos_nonneg; lia).
    rewrite Z.rem_mul_r by lia. rewrite (Z.mul_comm a ((v / a) mod _)), Z.div_add by lia.
    rewrite (Z.div_small (v mod a)) by (apply Z.mod_pos_bound; lia). rewrite Z.add_0_l.
    rewrite (Z.rem_mul_r (v / a) 256 b) by lia. rewrite (Z.mul_comm 256 (_ mod b)), Z.mod_add, Zmod_mod by lia. reflexivity. }
  intros v w E. assert (forall j, (j <= k)%nat -> be_string j v = be_string j w) as F; [|apply F; lia].
  induction j as [|j IH]; intro L; [reflexivity|]. cbn [be_string].
  rewrite (X k j v), (X k j w), E by lia. f_equal. apply IH. lia.
Qed.
Lemma be_string_length k v : length (be_string k v) = k.
Proof. induction k; cbn; auto. Qed.
Lemma be_string_bytes k v : is_bytes (be_string k v).
Proof. induction k; constructor; [apply Z.mod_pos_bound; lia|assumption]. Qed.
Lemma be_value_range b : is_bytes b -> 0 <= be_value b < 256 ^ Z.of_nat (length b).
Proof.
  induction 1 as [|x t Hx Ht IH]; [cbn; lia|]. cbn [be_value length].
  rewrite Nat2Z.inj_succ, Z.pow_succ_r by lia. nia.
Qed.
Lemma be_value_string k : forall v, be_value (be_string k v) = v mod 256 ^ Z.of_nat k.
Proof.
  induction k as [|k IH]; intro v; [cbn; rewrite Z.mod_1_r; reflexivity|].
  cbn [be_string be_value]. rewrite be_string_length, IH, Nat2Z.inj_succ, Z.pow_succ_r by lia.
  assert (0 < 256 ^ Z.of_nat k) by (apply Z.pow_pos_nonneg; lia).
  rewrite (Z.mul_comm 256), Z.rem_mul_r by lia. ring.
Qed.
Lemma be_string_value b : is_bytes b -> be_string (length b) (be_value b) = b.
Proof.
  induction 1 as [|x t Hx Ht IH]; [reflexivity|]. cbn [be_value length be_string].
  assert (R := be_value_range t Ht). assert (0 < 256 ^ Z.of_nat (length t)) by (apply Z.pow_pos_nonneg; lia).
  f_equal.
  - rewrite Z.div_add_l by lia. rewrite Z.div_small, Z.add_0_r by lia. apply Z.mod_small; lia.
  - etransitivity; [|exact IH]. apply be_string_mod. rewrite Z.add_comm, Z.mod_add by lia. reflexivity.
Qed.

Lemma from_hex_ok k : forall s, digits s -> length s = (2 * k)%nat -> from_hex s = be_string k (hv s).
Proof.
  induction k as [|k IH]; intros s D L.
  - destruct s; [reflexivity|discriminate].
  - destruct s as [|a [|b t]]; try (cbn in L; lia). inversion D as [|? ? Ha D1]; subst. inversion D1 as [|? ? Hb Dt]; subst.
    cbn [from_hex be_string]. unfold is_digit.
    assert (Lt : length t = (2 * k)%nat) by (cbn in L; lia).
    replace ((0 <=? a) && (a <? 16)) with true by (symmetry; apply andb_true_intro; lia).
    replace ((0 <=? b) && (b <? 16)) with true by (symmetry; apply andb_true_intro; lia). cbn [andb].
    rewrite !hv_cons. cbn [length]. rewrite Nat2Z.inj_succ, Z.pow_succ_r by lia.
    assert (R := hv_range t Dt). rewrite Lt, pow16_256 in *.
    set (c := 256 ^ Z.of_nat k) in *. assert (0 < c) by lia.
    replace (a * (16 * c) + (b * c + hv t)) with ((16 * a + b) * c + hv t) by ring. f_equal.
    + rewrite Z.div_add_l by lia. rewrite Z.div_small, Z.add_0_r by lia. symmetry. apply Z.mod_small. lia.
    + rewrite (IH t Dt Lt). apply be_string_mod. unfold c. rewrite Z.add_comm, Z.mod_add by lia. reflexivity.
Qed.
Lemma from_hex_bytes : forall k s, (length s <= k)%nat -> is_bytes (from_hex s).
Proof.
  induction k as [|k IH]; intros s L; destruct s as [|a [|b t]]; try constructor; try (cbn in L; lia).
  cbn [from_hex]. unfold is_digit. destruct ((0 <=? a) && (a <? 16)) eqn:A; [|constructor].
  destruct ((0 <=? b) && (b <? 16)) eqn:B; [|constructor]. cbn [andb]. constructor; [lia|]. apply IH. cbn in L. lia.
Qed.

Lemma bigIntToBytes_ok k n : (0 < k)%nat -> 0 <= n < 256 ^ Z.of_nat k -> bigIntToBytes n k = be_string k n.
Proof.
  intros Hk Hn. unfold bigIntToBytes, pad_start. destruct (to_hex_ok n ltac:(lia)) as (D & V & L).
  specialize (L (2 * k)%nat ltac:(lia)). rewrite pow16_256 in L. specialize (L ltac:(lia)).
  rewrite (from_hex_ok k).
  - rewrite hv_pad, V. reflexivity.
  - apply Forall_app. split; [|exact D]. apply Forall_forall. intros x Hx. apply repeat_spec in Hx. lia.
  - rewrite app_length, repeat_length. lia.
Qed.
Lemma bigIntToBytes_bytes n k : is_bytes (bigIntToBytes n k).
Proof. apply (from_hex_bytes _ _ (le_n _)). Qed.

Lemma buffer_hex_length b : length (buffer_hex b) = (2 * length b)%nat.
Proof. induction b as [|x t IH]; [reflexivity|]. cbn [buffer_hex flat_map app length] in *. unfold buffer_hex in IH. rewrite IH. lia. Qed.
Lemma buffer_hex_value b : is_bytes b -> hv (buffer_hex b) = be_value b.
Proof.
  induction 1 as [|x t Hx Ht IH]; [reflexivity|].
  change (buffer_hex (x :: t)) with (x / 16 :: x mod 16 :: buffer_hex t). rewrite !hv_cons, IH. cbn [length be_value].
  rewrite buffer_hex_length, Nat2Z.inj_succ, Z.pow_succ_r, pow16_256 by lia.
  pose proof (Z.div_mod x 16 ltac:(lia)). rewrite (Z.mul_comm _ (16 * _)). nia.
Qed.
Lemma bytesToBigInt_ok b : is_bytes b -> bytesToBigInt b = match b with [] => Panic | _ => Ok (be_value b) end.
Proof.
  intro H. unfold bytesToBigInt, bigint_of_hex. destruct b as [|x t]; [reflexivity|].
  change (buffer_hex (x :: t)) with (x / 16 :: x mod 16 :: buffer_hex t).
  apply (f_equal Ok). exact (buffer_hex_value _ H).
Qed.
Lemma bn_bytes_ok b : bn_bytes b = be_value b.
Proof.
  assert (forall a, fold_left (fun a x => 256 * a + x) b a = a * 256 ^ Z.of_nat (length b) + be_value b) as X.
  { induction b as [|x t IH]; intro a; cbn [fold_left length be_value]; [change (256 ^ Z.of_nat 0) with 1; ring|].
    rewrite IH, Nat2Z.inj_succ, Z.pow_succ_r by lia. ring. }
  unfold bn_bytes. rewrite X. ring.
Qed.

(** * Typed arrays *)
Lemma firstn_bytes k b : is_bytes b -> is_bytes (firstn k b).
Proof. intro H. apply Forall_forall. intros x I. apply (proj1 (Forall_forall (fun x => 0 <= x < 256) b) H). rewrite <- (firstn_skipn k b). apply in_app_iff. auto. Qed.
Lemma skipn_bytes k b : is_bytes b -> is_bytes (skipn k b).
Proof. intro H. apply Forall_forall. intros x I. apply (proj1 (Forall_forall (fun x => 0 <= x < 256) b) H). rewrite <- (firstn_skipn k b). apply in_app_iff. auto. Qed.
Lemma slice_bytes i j b : is_bytes b -> is_bytes (js_slice i j b).
Proof. intro H. apply firstn_bytes, skipn_bytes, H. Qed.
Lemma set_bytes b src off c : is_bytes b -> is_bytes src -> js_set b src off = Ok c -> is_bytes c /\ length c = length b.
Proof.
  intros Hb Hs E. unfold js_set in E. destruct (Nat.leb_spec (off + length src) (length b)) as [L|L]; [|discriminate].
  assert (c = firstn off b ++ src ++ skipn (off + length src) b) by congruence. subst c. split.
  - repeat (apply Forall_app; split); [apply firstn_bytes|exact Hs|apply skipn_bytes]; exact Hb.
  - rewrite !app_length, firstn_length, skipn_length. lia.
Qed.
(** writing the next field of a record whose first fields are already there *)
Lemma set_next off pre src m : off = length pre -> (length src <= m)%nat ->
  js_set (pre ++ repeat 0 m) src off = Ok ((pre ++ src) ++ repeat 0 (m - length src)).
Proof.
  intros -> L. unfold js_set. rewrite app_length, repeat_length.
  replace (Nat.leb (length pre + length src) (length pre + m)) with true by (symmetry; apply Nat.leb_le; lia).
  rewrite firstn_app, firstn_all, Nat.sub_diag, firstn_O, app_nil_r, <- app_assoc. do 3 f_equal.
  rewrite skipn_app, (skipn_all2 pre) by lia. rewrite app_nil_l. replace (length pre + length src - length pre)%nat with (length src) by lia.
  assert (forall a b : nat, skipn a (repeat 0 b) = repeat 0 (b - a)) as S.
  { clear. induction a as [|a IH]; intros [|b]; try reflexivity. cbn. apply IH. }
  apply S.
Qed.

Lemma u256_be v : u256 v -> bigIntToBytes v 32 = be_string 32 v.
Proof. intro H. apply bigIntToBytes_ok; [lia|]. exact H. Qed.

Theorem cpi_serialize_ok c : cpi_fits c -> cpi_serialize c = Ok (cpi_wire c).
Proof.
  intros (H1 & H2 & H3 & H4 & H5). unfold cpi_serialize, cpi_wire. rewrite !u256_be by assumption.
  generalize (be_string_length 32 (cp_root c)) (be_string_length 32 (cp_Tx c)) (be_string_length 32 (cp_Ty c))
    (be_string_length 32 (cp_Ux c)) (be_string_length 32 (cp_Uy c)).
  generalize (be_string 32 (cp_root c)) (be_string 32 (cp_Tx c)) (be_string 32 (cp_Ty c)) (be_string 32 (cp_Ux c)) (be_string 32 (cp_Uy c)).
  intros a b d e f La Lb Ld Le Lf.
  cbv zeta. change (repeat 0 (32 * 5)) with ([] ++ repeat 0 160).
  rewrite (set_next 0 [] a) by (cbn [length]; lia). cbn [bind].
  rewrite (set_next 32 _ b) by (rewrite ?app_length; cbn [length]; lia). cbn [bind].
  rewrite (set_next 64 _ d) by (rewrite ?app_length; cbn [length]; lia). cbn [bind].
  rewrite (set_next 96 _ e) by (rewrite ?app_length; cbn [length]; lia). cbn [bind].
  rewrite (set_next 128 _ f) by (rewrite ?app_length; cbn [length]; lia).
  replace (160 - length a - length b - length d - length e - length f)%nat with 0%nat by lia.
  cbn [repeat]. rewrite app_nil_r, <- !app_assoc. reflexivity.
Qed.
Lemma cpi_wire_length c : length (cpi_wire c) = 160%nat.
Proof. unfold cpi_wire. rewrite !app_length, !be_string_length. reflexivity. Qed.
Theorem pi_serialize_ok x : pi_fits x -> pi_serialize x = Ok (pi_wire x).
Proof.
  intros (H1 & H2 & H3). unfold pi_serialize, pi_wire. rewrite (cpi_serialize_ok _ H3). cbn [bind].
  rewrite u256_be by exact H1. rewrite (bigIntToBytes_ok 1) by (try lia; exact H2).
  generalize (be_string_length 32 (pi_r x)) (be_string_length 1 (pi_rV x)) (cpi_wire_length (pi_circuit x)).
  generalize (be_string 32 (pi_r x)) (be_string 1 (pi_rV x)) (cpi_wire (pi_circuit x)) (pi_msgHash x).
  intros a b c m La Lb Lc. set (N := (32 + 1 + length m + length c)%nat). cbv zeta.
  change (repeat 0 N) with ([] ++ repeat 0 N). assert (EN : N = (33 + length m + length c)%nat) by (unfold N; lia). clearbody N.
  rewrite (set_next 0 [] a) by (cbn [length]; lia). cbn [bind].
  rewrite (set_next 32 _ b) by (rewrite ?app_length; cbn [length]; lia). cbn [bind].
  rewrite (set_next 33 _ c) by (rewrite ?app_length; cbn [length]; lia). cbn [bind].
  rewrite (set_next _ _ m) by (rewrite ?app_length; cbn [length]; lia).
  replace (N - length a - length b - length c - length m)%nat with 0%nat by lia.
  cbn [repeat]. rewrite app_nil_r, <- !app_assoc. reflexivity.
Qed.

(** decoding consecutive fields *)
Lemma slice_at i j pre f post : length pre = i -> length f = (j - i)%nat -> js_slice i j (pre ++ f ++ post) = f.
Proof.
  intros Hp Hf. unfold js_slice. rewrite skipn_app, (skipn_all2 pre) by lia. replace (i - length pre)%nat with 0%nat by lia.
  cbn [skipn app]. rewrite firstn_app, firstn_all2 by lia. replace (j - i - length f)%nat with 0%nat by lia. apply app_nil_r.
Qed.
Lemma decode_be k v : (0 < k)%nat -> 0 <= v < 256 ^ Z.of_nat k -> bytesToBigInt (be_string k v) = Ok v.
Proof.
  intros Hk Hv. rewrite bytesToBigInt_ok by apply be_string_bytes. destruct k as [|k]; [lia|].
  change (match be_string (S k) v with [] => Panic | _ => Ok (be_value (be_string (S k) v)) end) with (Ok (be_value (be_string (S k) v))).
  rewrite be_value_string, Z.mod_small by exact Hv. reflexivity.
Qed.
Lemma decode_32 v : u256 v -> bytesToBigInt (be_string 32 v) = Ok v.
Proof. intro H. apply decode_be; [lia|exact H]. Qed.
Theorem cpi_roundtrip c : cpi_fits c -> cpi_deserialize (cpi_wire c) = Ok c.
Proof.
  intros (H1 & H2 & H3 & H4 & H5). unfold cpi_deserialize, cpi_wire.
  generalize (be_string_length 32 (cp_root c)) (be_string_length 32 (cp_Tx c)) (be_string_length 32 (cp_Ty c))
    (be_string_length 32 (cp_Ux c)) (be_string_length 32 (cp_Uy c))
    (decode_32 _ H1) (decode_32 _ H2) (decode_32 _ H3) (decode_32 _ H4) (decode_32 _ H5).
  generalize (be_string 32 (cp_root c)) (be_string 32 (cp_Tx c)) (be_string 32 (cp_Ty c)) (be_string 32 (cp_Ux c)) (be_string 32 (cp_Uy c)).
  intros a b d e f La Lb Ld Le Lf Ea Eb Ed Ee Ef.
  match goal with |- context [js_slice 0 32 (a ++ ?l)] => rewrite (slice_at 0 32 [] a l eq_refl ltac:(lia) : js_slice 0 32 (a ++ l) = a) end. rewrite Ea. cbn [bind].
  rewrite (slice_at 32 64 a b) by lia. rewrite Eb. cbn [bind].
  rewrite (app_assoc a b). rewrite (slice_at 64 96 (a ++ b) d) by (rewrite ?app_length; lia). rewrite Ed. cbn [bind].
  rewrite (app_assoc (a ++ b) d). rewrite (slice_at 96 128 ((a ++ b) ++ d) e) by (rewrite ?app_length; lia). rewrite Ee. cbn [bind].
  rewrite (app_assoc ((a ++ b) ++ d) e). rewrite <- (app_nil_r f) at 1.
  rewrite (slice_at 128 160 (((a ++ b) ++ d) ++ e) f []) by (rewrite ?app_length; lia). rewrite Ef. cbn [bind].
  destruct c; reflexivity.
Qed.
Theorem pi_roundtrip x : pi_fits x -> pi_deserialize (pi_wire x) = Ok x.
Proof.
  intros (H1 & H2 & H3). unfold pi_deserialize, pi_wire.
  generalize (be_string_length 32 (pi_r x)) (be_string_length 1 (pi_rV x)) (cpi_wire_length (pi_circuit x)) (decode_32 _ H1)
    (decode_be 1 (pi_rV x) ltac:(lia) H2) (cpi_roundtrip _ H3).
  destruct x as [r v m c]. cbn [pi_r pi_rV pi_msgHash pi_circuit].
  generalize (be_string 32 r) (be_string 1 v) (cpi_wire c). intros a b d La Lb Ld Ea Eb Ed.
  match goal with |- context [js_slice 0 32 (a ++ ?l)] => rewrite (slice_at 0 32 [] a l eq_refl ltac:(lia) : js_slice 0 32 (a ++ l) = a) end. rewrite Ea. cbn [bind].
  rewrite (slice_at 32 33 a b) by lia. rewrite Eb. cbn [bind].
  rewrite (app_assoc a b). rewrite (slice_at (32 + 1) (32 + 1 + 32 * 5) (a ++ b) d) by (rewrite ?app_length; cbn; lia). rewrite Ed. cbn [bind].
  rewrite app_assoc, skipn_app, (skipn_all2 ((a ++ b) ++ d)) by (rewrite !app_length; lia).
  replace (32 + 1 + 32 * 5 - length ((a ++ b) ++ d))%nat with 0%nat by (rewrite !app_length; lia). reflexivity.
Qed.

(** * Decoding any byte string *)
Lemma decode_slice i j b : is_bytes b -> (i < j)%nat -> (i < length b)%nat ->
  bytesToBigInt (js_slice i j b) = Ok (be_value (js_slice i j b)).
Proof.
  intros Hb L Lb. rewrite bytesToBigInt_ok by (apply slice_bytes; exact Hb).
  destruct (js_slice i j b) eqn:E; [|reflexivity]. exfalso. apply (f_equal (@length Z)) in E. unfold js_slice in E.
  rewrite firstn_length, skipn_length in E. cbn in E. lia.
Qed.
Lemma decode_past i j b : (length b <= i)%nat -> bytesToBigInt (js_slice i j b) = Panic.
Proof. intro L. unfold js_slice. rewrite skipn_all2, firstn_nil by exact L. reflexivity. Qed.
Lemma slice_len i j b : (j <= length b)%nat -> length (js_slice i j b) = (j - i)%nat.
Proof. intro L. unfold js_slice. rewrite firstn_length, skipn_length. lia. Qed.
Lemma slice_range i j b : is_bytes b -> 0 <= be_value (js_slice i j b) < 256 ^ Z.of_nat (j - i).
Proof.
  intro H. pose proof (be_value_range _ (slice_bytes i j b H)) as R. split; [lia|].
  apply (Z.lt_le_trans _ _ _ (proj2 R)). apply Z.pow_le_mono_r; [lia|]. unfold js_slice. rewrite firstn_length. lia.
Qed.

Lemma cpi_decode b : is_bytes b ->
  ((length b <= 128)%nat -> cpi_deserialize b = Panic) /\
  ((128 < length b)%nat -> exists c, cpi_deserialize b = Ok c /\ cpi_fits c /\ (length b = 160%nat -> cpi_wire c = b)).
Proof.
  intro Hb. split; intro L.
  - unfold cpi_deserialize. rewrite (decode_past 128 160 b L).
    destruct (bytesToBigInt (js_slice 0 32 b)) eqn:E1; [cbn [bind]|unfold bytesToBigInt, bigint_of_hex in E1; destruct (buffer_hex _); discriminate|reflexivity].
    destruct (bytesToBigInt (js_slice 32 64 b)) eqn:E2; [cbn [bind]|unfold bytesToBigInt, bigint_of_hex in E2; destruct (buffer_hex _); discriminate|reflexivity].
    destruct (bytesToBigInt (js_slice 64 96 b)) eqn:E3; [cbn [bind]|unfold bytesToBigInt, bigint_of_hex in E3; destruct (buffer_hex _); discriminate|reflexivity].
    destruct (bytesToBigInt (js_slice 96 128 b)) eqn:E4; [reflexivity|unfold bytesToBigInt, bigint_of_hex in E4; destruct (buffer_hex _); discriminate|reflexivity].
  - unfold cpi_deserialize. rewrite !decode_slice by (try exact Hb; lia). cbn [bind]. eexists. split; [reflexivity|]. split.
    + repeat split; try (apply slice_range; exact Hb);
        (eapply Z.lt_le_trans; [apply slice_range; exact Hb|cbn; lia]).
    + intro L2. unfold cpi_wire. cbn [cp_root cp_Tx cp_Ty cp_Ux cp_Uy].
      assert (S : forall i j, (j <= 160)%nat -> (j - i = 32)%nat -> be_string 32 (be_value (js_slice i j b)) = js_slice i j b).
      { intros i j Hj E. rewrite <- E at 1. rewrite <- (slice_len i j b) by lia. apply be_string_value, slice_bytes, Hb. }
      rewrite !S by lia. unfold js_slice.
      assert (F : forall k l (b : list Z), firstn k b ++ firstn l (skipn k b) = firstn (k + l) b).
      { clear. induction k as [|k IH]; intros l b; [reflexivity|]. destruct b; [cbn; rewrite firstn_nil; reflexivity|].
        cbn. f_equal. apply IH. }
      rewrite !app_assoc. change (skipn 0 b) with b.
      rewrite (F 32%nat). rewrite (F 64%nat). rewrite (F 96%nat). rewrite (F 128%nat). apply firstn_all2. lia.
Qed.
Theorem pi_decode b : is_bytes b ->
  ((length b <= 161)%nat -> pi_deserialize b = Panic) /\
  ((161 < length b)%nat -> exists x, pi_deserialize b = Ok x /\ pi_fits x /\ is_bytes (pi_msgHash x) /\
    pi_msgHash x = skipn 193 b /\ ((193 <= length b)%nat -> pi_wire x = b)).
Proof.
  intro Hb. assert (Hc : is_bytes (js_slice (32 + 1) (32 + 1 + 32 * 5) b)) by (apply slice_bytes; exact Hb).
  destruct (cpi_decode _ Hc) as [C1 C2].
  assert (Lc : length (js_slice (32 + 1) (32 + 1 + 32 * 5) b) = Nat.min 160 (length b - 33)).
  { unfold js_slice. rewrite firstn_length, skipn_length. reflexivity. }
  split; intro L.
  - unfold pi_deserialize. rewrite (C1 ltac:(lia)).
    destruct (bytesToBigInt (js_slice 0 32 b)) eqn:E1; [cbn [bind]|unfold bytesToBigInt, bigint_of_hex in E1; destruct (buffer_hex _); discriminate|reflexivity].
    destruct (bytesToBigInt (js_slice 32 33 b)) eqn:E2; [reflexivity|unfold bytesToBigInt, bigint_of_hex in E2; destruct (buffer_hex _); discriminate|reflexivity].
  - destruct (C2 ltac:(lia)) as (c & E & Fc & W). unfold pi_deserialize. rewrite !decode_slice by (try exact Hb; lia). cbn [bind].
    rewrite E. cbn [bind]. eexists. split; [reflexivity|]. cbn [pi_r pi_rV pi_msgHash pi_circuit].
    split; [split; [apply (slice_range 0 32 b Hb)|split; [exact (slice_range 32 33 b Hb)|exact Fc]]|].
    split; [apply skipn_bytes; exact Hb|]. split; [reflexivity|]. intro L2.
    unfold pi_wire. cbn [pi_r pi_rV pi_msgHash pi_circuit]. rewrite W by lia.
    assert (S : forall i j, (j <= length b)%nat -> be_string (j - i) (be_value (js_slice i j b)) = js_slice i j b).
    { intros i j Hj. rewrite <- (slice_len i j b) by lia. apply be_string_value, slice_bytes, Hb. }
    pose proof (S 0 32 ltac:(lia))%nat as S1. pose proof (S 32 33 ltac:(lia))%nat as S2. cbn [Nat.sub] in S1, S2. rewrite S1, S2.
    unfold js_slice.
    assert (F : forall k l (b : list Z), firstn k b ++ firstn l (skipn k b) = firstn (k + l) b).
    { clear. induction k as [|k IH]; intros l b; [reflexivity|]. destruct b; [cbn; rewrite firstn_nil; reflexivity|].
      cbn. f_equal. apply IH. }
    rewrite !app_assoc. change (skipn 0 b) with b.
    rewrite (F 32%nat). rewrite (F 33%nat). apply firstn_skipn.
Qed.

(** * Serialising gives bytes, so nothing else survives *)
Lemma cpi_serialize_bytes c s : cpi_serialize c = Ok s -> is_bytes s.
Proof.
  unfold cpi_serialize. intro H.
  assert (Z0 : is_bytes (repeat 0 (32 * 5))) by (apply Forall_forall; intros x I; apply repeat_spec in I; lia).
  repeat match type of H with
  | bind ?e _ = Ok _ => destruct e eqn:?; cbn [bind] in H; [|discriminate H..];
      match goal with E : js_set _ _ _ = Ok _, B : is_bytes _ |- _ => apply (set_bytes _ _ _ _ B (bigIntToBytes_bytes _ _)) in E; clear B; destruct E as [B _] end
  end.
  match goal with B : is_bytes _ |- _ => apply (set_bytes _ _ _ _ B (bigIntToBytes_bytes _ _)) in H end. apply H.
Qed.
Lemma pi_serialize_bytes x s : is_bytes (pi_msgHash x) -> pi_serialize x = Ok s -> is_bytes s.
Proof.
  unfold pi_serialize. intros Hm H. destruct (cpi_serialize (pi_circuit x)) as [c|e|] eqn:Ec; cbn [bind] in H; [|discriminate..].
  apply cpi_serialize_bytes in Ec.
  match type of H with bind (js_set ?z _ _) _ = _ => assert (Z0 : is_bytes z) by (apply Forall_forall; intros y I; apply repeat_spec in I; lia) end.
  destruct (js_set _ (bigIntToBytes (pi_r x) 32) 0) as [s1|e|] eqn:E1; cbn [bind] in H; [|discriminate..].
  apply (set_bytes _ _ _ _ Z0 (bigIntToBytes_bytes _ _)) in E1. destruct E1 as [B1 _].
  destruct (js_set _ (bigIntToBytes (pi_rV x) 1) 32) as [s2|e|] eqn:E2; cbn [bind] in H; [|discriminate..].
  apply (set_bytes _ _ _ _ B1 (bigIntToBytes_bytes _ _)) in E2. destruct E2 as [B2 _].
  destruct (js_set s2 c 33) as [s3|e|] eqn:E3; cbn [bind] in H; [|discriminate..].
  apply (set_bytes _ _ _ _ B2 Ec) in E3. destruct E3 as [B3 _].
  apply (set_bytes _ _ _ _ B3 Hm) in H. apply H.
Qed.
Theorem pi_roundtrip_iff x : is_bytes (pi_msgHash x) ->
  (bind (pi_serialize x) pi_deserialize = Ok x <-> pi_fits x).
Proof.
  intro Hm. split; intro H.
  - destruct (pi_serialize x) as [s|e|] eqn:E; cbn [bind] in H; [|discriminate..].
    apply (pi_serialize_bytes _ _ Hm) in E. destruct (pi_decode s E) as [D1 D2].
    destruct (le_lt_dec (length s) 161) as [L|L]; [rewrite D1 in H by exact L; discriminate|].
    destruct (D2 L) as (y & Ey & F & _). rewrite Ey in H. assert (y = x) by congruence. subst y. exact F.
  - rewrite (pi_serialize_ok x H). exact (pi_roundtrip x H).
Qed.
