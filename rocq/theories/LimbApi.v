(** The limb arithmetic as seen through the API: generic statements over any
    valid set of constants. *)
From Coq Require Import ZArith List Bool Lia Znumtheory.
From Verif Require Import Base ListAux Limb LimbSpec LimbProofs LimbMont LimbInt LimbInst Fermat Primes Zq.
Import ListNotations.
Local Open Scope Z_scope.
Lemma fint_fold P a : of_le (to_bytes P a) = fint P a.
Proof. reflexivity. Qed.
Local Opaque to_bytes from_bytes of_le mul square pow2k add sub neg pow montgomery_reduce fint le_bytes.

Section Api.
  Variable P : params.
  Variable q : Z.
  Hypothesis V : valid P q.
  Let W a (H : reach P a) : wf q a := reach_wf P q V a H.

  Lemma api_range a : reach P a -> 0 <= fint P a < q.
  Proof. intro H. exact (fint_range P q V a (W a H)). Qed.
  Lemma api_add a b : reach P a -> reach P b -> fint P (add P a b) = (fint P a + fint P b) mod q.
  Proof. intros. apply (fint_add P q V); auto. Qed.
  Lemma api_sub a b : reach P a -> reach P b -> fint P (sub P a b) = (fint P a - fint P b) mod q.
  Proof. intros. apply (fint_sub P q V); auto. Qed.
  Lemma api_mul a b : reach P a -> reach P b -> fint P (mul P a b) = (fint P a * fint P b) mod q.
  Proof. intros. apply (fint_mul P q V); auto. Qed.
  Lemma api_neg a : reach P a -> fint P (neg P a) = (- fint P a) mod q.
  Proof. intros. apply (fint_neg P q V); auto. Qed.
  Lemma api_square a : reach P a -> fint P (square P a) = (fint P a * fint P a) mod q.
  Proof. intros. apply (fint_square P q V); auto. Qed.
  Lemma api_double a : reach P a -> fint P (double P a) = (2 * fint P a) mod q.
  Proof.
    intros. unfold double. rewrite api_add by assumption. apply (f_equal2 Z.modulo); [zring|reflexivity].
  Qed.
  Lemma q_gt1 : 1 < q.
  Proof. exact (v_q _ _ V). Qed.
  Lemma api_zero : fint P zero = 0.
  Proof. apply (fint_zero P q V). Qed.
  Lemma api_one : fint P (one P) = 1.
  Proof. apply (fint_one P q V). Qed.
  Lemma api_eqb a b : reach P a -> reach P b -> (eqb a b = true <-> fint P a = fint P b).
  Proof. intros. apply (eqb_spec_wf P q V); auto. Qed.
  Lemma api_unique a b : reach P a -> reach P b -> fint P a = fint P b -> a = b.
  Proof. intros. apply (fint_inj P q V); auto. Qed.
  Lemma api_limb4 a : reach P a -> l4 a = 0 /\ limbs_ok a.
  Proof.
    intro H. destruct (W a H) as [H1 H2]. split; [|exact H1].
    apply limbs4; [exact H1|]. pose proof (q_lt _ _ V). lia.
  Qed.

  Lemma api_from_bytes bs : length bs = 32%nat -> bytes_ok bs ->
    (of_le bs < q -> exists a, from_bytes P bs = Some a /\ reach P a /\ fint P a = of_le bs /\ to_bytes P a = bs) /\
    (q <= of_le bs -> from_bytes P bs = None).
  Proof.
    intros HL Hb. pose proof (from_bytes_spec P q V bs HL Hb) as S.
    destruct (from_bytes P bs) as [a|] eqn:E.
    - destruct S as (Wa & Hlt & Ha). split; [|lia]. intros _. exists a. split; [reflexivity|].
      split; [exact (reach_from_bytes P bs a HL Hb E)|]. split; [exact Ha|].
      exact (roundtrip_bytes P q V bs a HL Hb E).
    - split; [lia|reflexivity].
  Qed.
  Lemma api_to_bytes a : reach P a -> length (to_bytes P a) = 32%nat /\ bytes_ok (to_bytes P a) /\
    of_le (to_bytes P a) < q /\ from_bytes P (to_bytes P a) = Some a.
  Proof.
    intro H. split; [apply to_bytes_length|]. split; [apply to_bytes_ok|].
    split; [rewrite fint_fold; exact (proj2 (api_range a H))|]. exact (roundtrip P q V a (W a H)).
  Qed.
  Lemma api_be a : reach P a -> to_be_bytes P a = rev (to_bytes P a) /\ from_sec1 P (to_be_bytes P a) = Some a.
  Proof.
    intro H. split; [apply to_be_bytes_spec|]. unfold from_sec1. rewrite to_be_bytes_spec, rev_involutive.
    exact (roundtrip P q V a (W a H)).
  Qed.
  Lemma api_wide bs : length bs = 64%nat -> bytes_ok bs -> fint P (from_bytes_wide P bs) = of_le bs mod q.
  Proof. intros. apply (from_bytes_wide_spec P q V); assumption. Qed.
  Lemma api_raw a b c d : u64 a -> u64 b -> u64 c -> u64 d ->
    fint P (from_raw P a b c d) = of_words [a; b; c; d] mod q.
  Proof.
    intros. destruct (from_raw_spec P q V a b c d) as [_ E]; [assumption..|]. rewrite E.
    apply (f_equal2 Z.modulo); [|reflexivity]. unfold val. cbn [of_words l0 l1 l2 l3 l4]. ring.
  Qed.
  Lemma api_u64 v : u64 v -> fint P (from_u64 P v) = v mod q.
  Proof. intros. apply (from_u64_spec P q V); assumption. Qed.
  Lemma api_random a b c d e f g h : u64 a -> u64 b -> u64 c -> u64 d -> u64 e -> u64 f -> u64 g -> u64 h ->
    fint P (random P a b c d e f g h) = of_words [a;b;c;d;e;f;g;h] mod q.
  Proof.
    intros. unfold random.
    destruct (from_u512_spec P q V a b c d e f g h) as [_ E]; [assumption..|]. rewrite E. apply (f_equal2 Z.modulo); [|reflexivity].
    change BB with (B64 * B64 * B64 * B64). unfold val. cbn [of_words l0 l1 l2 l3 l4]. ring.
  Qed.
  Lemma api_pow a e : reach P a -> Forall u64 e ->
    pow_vartime P a e = pow P a e /\ fint P (pow P a e) = fint P a ^ of_words e mod q.
  Proof.
    intros H He. split; [apply pow_vartime_eq|]. apply (pow_spec P q V); auto.
  Qed.
  Lemma api_pow_by_self a e : reach P a -> reach P e ->
    fint P (pow_by_self P a e) = fint P a ^ fint P e mod q.
  Proof. intros. apply (pow_by_self_spec P q V); auto. Qed.
  Lemma reach_all l : Forall (reach P) l -> Forall (wf q) l.
  Proof. apply Forall_impl. exact W. Qed.
  Lemma api_product l : Forall (reach P) l -> fint P (product P l) = fold_right Z.mul 1 (map (fint P) l) mod q.
  Proof. intro. apply (product_spec P q V), reach_all; assumption. Qed.
  Lemma api_sum l : Forall (reach P) l -> fint P (sum P l) = fold_right Z.add 0 (map (fint P) l) mod q.
  Proof. intro. apply (sum_spec P q V), reach_all; assumption. Qed.
  Lemma api_odd a : reach P a -> is_odd P a = Z.odd (fint P a).
  Proof. intro. apply (is_odd_spec P q V); auto. Qed.

  Lemma modinv_zero f : modinv_ok q f -> f 0 = None.
  Proof.
    intro Hf. pose proof (q_gt1) as Hq. assert (H0 : 0 <= 0 < q) by lia. specialize (Hf 0 H0).
    destruct (f 0) as [v|]; [|reflexivity]. destruct Hf as [_ Hf]. rewrite Z.mul_0_l, Z.mod_0_l in Hf by lia. lia.
  Qed.
  Definition invert_ok (inv : fe -> option fe) : Prop := forall a, reach P a ->
    (fint P a <> 0 -> exists b, inv a = Some b /\ reach P b /\ (fint P a * fint P b) mod q = 1) /\
    (fint P a = 0 -> inv a = None).
  Lemma inv_ok_invert_ok inv : inv_ok P q inv -> invert_ok inv.
  Proof.
    intros Hi a H. specialize (Hi a (W a H)). pose proof (q_gt1) as Hq.
    destruct (inv a) as [b|].
    - destruct Hi as [Wb E]. split.
      + intros _. exists b. split; [reflexivity|]. split; [exact (wf_reach P q V b Wb)|exact E].
      + intro Z0. rewrite Z0, Z.mul_0_l, Z.mod_0_l in E by lia. lia.
    - split; [intro N; contradiction|reflexivity].
  Qed.
  Lemma invert_inv_ok f : modinv_ok q f -> inv_ok P q (invert P f).
  Proof. intros Hf a Wa. exact (invert_spec P q V f a Hf Wa). Qed.
  Lemma api_invert f : modinv_ok q f -> invert_ok (invert P f).
  Proof. intro Hf. apply inv_ok_invert_ok, invert_inv_ok, Hf. Qed.

  Lemma api_batch inv l : inv_ok P q inv -> prime q -> Forall (reach P) l ->
    (Forall (fun x => fint P x <> 0) l ->
      exists out r, batch_invert P inv l = Ok (out, r) /\ Forall (reach P) out /\ reach P r /\
        Forall2 (fun x y => (fint P x * fint P y) mod q = 1) l out /\
        (fint P r * fold_right Z.mul 1 (map (fint P) l)) mod q = 1) /\
    (Exists (fun x => fint P x = 0) l -> batch_invert P inv l = Panic).
  Proof.
    intros Hi Hp Hl. apply reach_all in Hl. split.
    - intro Hn. destruct (batch_invert_ok P q V inv l Hi Hp Hl Hn) as (out & r & E & Ho & H2 & Wr & Er).
      exists out, r. split; [exact E|]. split; [revert Ho; apply Forall_impl; intro; apply (wf_reach P q V)|].
      split; [exact (wf_reach P q V r Wr)|]. split; [exact H2|].
      replace (fold_right Z.mul 1 (map (fint P) l)) with (zprod (map (fint P) l)); [exact Er|].
      clear. generalize (map (fint P) l). induction l0 as [|x t IH]; [reflexivity|].
      cbn [zprod fold_right]. rewrite IH. reflexivity.
    - intro Hz. exact (batch_invert_zero P q V inv l Hi Hl Hz).
  Qed.

  Lemma api_visit_seq bs : bytes_ok bs ->
    ((32 <= length bs)%nat -> exists a, visit_seq P bs = Ok a /\ reach P a /\ fint P a = of_le (firstn 32 bs) mod q) /\
    ((length bs < 32)%nat -> visit_seq P bs = Panic).
  Proof.
    intro Hb. split; intro HL.
    - destruct (visit_seq_spec P q V bs HL Hb) as (a & E & Wa & Ea). exists a.
      split; [exact E|]. split; [exact (wf_reach P q V a Wa)|exact Ea].
    - unfold visit_seq. destruct (Nat.leb_spec 32 (length bs)); [lia|reflexivity].
  Qed.

  Lemma api_serde a : reach P a -> visit_seq P (to_bytes P a) = Ok a.
  Proof.
    intro H. destruct (api_to_bytes a H) as (HL & Hb & Hlt & _).
    destruct (proj1 (api_visit_seq (to_bytes P a) Hb) ltac:(lia)) as (b & E & Rb & Eb).
    rewrite E. f_equal. apply api_unique; [exact Rb|exact H|].
    rewrite Eb, <- HL, firstn_all, fint_fold. apply Z.mod_small, api_range, H.
  Qed.

  (** The sequence the generic [FieldElement] serialiser writes, read back. *)
  Lemma api_fe_serde a : reach P a ->
    exists b, fe_deserialize P (fe_serialize a) = Ok b /\ reach P b /\ fint P b = (fint P a * 2 ^ 256) mod q.
  Proof.
    intro H. destruct (api_limb4 a H) as (H4 & K0 & K1 & K2 & K3 & K4).
    assert (Hb : bytes_ok (fe_serialize a)).
    { unfold fe_serialize, bytes_ok. repeat (apply Forall_app; split); apply le_bytes_ok. }
    assert (HL : length (fe_serialize a) = 40%nat).
    { unfold fe_serialize. rewrite !app_length, !le_bytes_length. reflexivity. }
    destruct (proj1 (api_visit_seq _ Hb) ltac:(lia)) as (b & E & Rb & Eb).
    exists b. split; [exact E|]. split; [exact Rb|]. rewrite Eb.
    pose proof (fint_val P q V a (W a H)) as [_ Ev]. change BB with (2 ^ 256) in Ev.
    replace (of_le (firstn 32 (fe_serialize a))) with (val a).
    - rewrite <- Ev. apply Zmod_mod.
    - unfold fe_serialize. rewrite !app_assoc, firstn_app.
      rewrite (firstn_all2 (n:=32)) by (rewrite !app_length, !le_bytes_length; reflexivity).
      rewrite !app_length, !le_bytes_length. cbn [Nat.add Nat.sub firstn]. rewrite app_nil_r.
      rewrite !of_le_app, !app_length, !le_bytes_length, !of_le_le_bytes by (unfold u64 in *; lia).
      change (256 ^ Z.of_nat 8) with B64. unfold u64 in *. rewrite !Z.mod_small by assumption.
      change (256 ^ Z.of_nat (8 + 8 + 8)) with (B64 * B64 * B64).
      change (256 ^ Z.of_nat (8 + 8)) with (B64 * B64).
      unfold val. rewrite H4. ring.
  Qed.

  Lemma api_ksqrt f a : ksqrt_ok q f -> reach P a ->
    match secq_sqrt P f a with
    | Ok (Some r) => reach P r /\ (fint P r * fint P r) mod q = fint P a
    | Ok None => forall y, (y * y) mod q <> fint P a
    | _ => False
    end.
  Proof.
    intros Hf H. unfold secq_sqrt. rewrite to_be_bytes_spec, rev_involutive.
    rewrite fint_fold.
    specialize (Hf (fint P a) (api_range a H)). destruct (f (fint P a)) as [s|]; [|exact Hf].
    destruct Hf as [Hs E]. unfold from_sec1. rewrite rev_involutive.
    assert (Ev : of_le (le_bytes 32 s) = s).
    { rewrite of_le_le_bytes by lia. apply Z.mod_small. change (256 ^ Z.of_nat 32) with BB.
      pose proof (q_lt _ _ V). lia. }
    destruct (proj1 (api_from_bytes (le_bytes 32 s) (le_bytes_length _ _) (le_bytes_ok _ _)) ltac:(lia)) as (r & Er & Rr & Fr & _).
    rewrite Er. split; [exact Rr|]. rewrite Fr, Ev. exact E.
  Qed.
End Api.

(** A total modular inverse meeting the contract, for the examples. *)
Definition modinv_ref (q : Z) (x : Z) : option Z := if x =? 0 then None else Some (zinv_raw q x mod q).
Lemma modinv_ref_ok q : prime q -> modinv_ok q (modinv_ref q).
Proof.
  intros Hq x Hx. unfold modinv_ref. pose proof (prime_ge_2 _ Hq).
  destruct (Z.eqb_spec x 0) as [->|N]; [reflexivity|].
  split; [apply Z.mod_pos_bound; lia|]. rewrite Zmult_mod_idemp_r. apply zinv_raw_ok; [exact Hq|lia].
Qed.

Lemma fe_serde_fails P q (V : valid P q) : prime q -> 2 ^ 256 mod q <> 1 -> forall a,
  reach P a -> fint P a <> 0 -> fe_deserialize P (fe_serialize a) <> Ok a.
Proof.
  intros Hq HR a Ha Hn E. destruct (api_fe_serde P q V a Ha) as (b & Eb & Rb & Fb).
  rewrite E in Eb. injection Eb as <-. pose proof (api_range P q V a Ha) as Hr.
  generalize dependent (fint P a). intros x Hx0 Ex Hx. apply HR.
  assert (D : (q | x * (2 ^ 256 - 1))).
  { exists ((x * 2 ^ 256) / q). pose proof (Z.div_mod (x * 2 ^ 256) q ltac:(lia)). nia. }
  apply prime_mult in D; [|exact Hq]. destruct D as [D|D].
  - apply Z.divide_pos_le in D; lia.
  - destruct D as [k Hk]. replace (2 ^ 256) with (1 + k * q) by lia. rewrite Z_mod_plus_full. apply Z.mod_1_l. lia.
Qed.

(** squares, stated on integers *)
Lemma wf_of_int P q (V : valid P q) y : exists b, reach P b /\ fint P b = y mod q.
Proof.
  pose proof (v_q _ _ V). pose proof (Z.mod_pos_bound y q ltac:(lia)) as Hy.
  assert (Ev : of_le (le_bytes 32 (y mod q)) = y mod q).
  { rewrite of_le_le_bytes by lia. apply Z.mod_small. change (256 ^ Z.of_nat 32) with BB.
    pose proof (q_lt _ _ V). lia. }
  destruct (proj1 (api_from_bytes P q V _ (le_bytes_length 32 (y mod q)) (le_bytes_ok _ _)) ltac:(lia)) as (r & Er & Rr & Fr & _).
  exists r. split; [exact Rr|]. rewrite Fr. exact Ev.
Qed.
Lemma secp_sqrt_of_square a : reach SECP a -> (exists y, (y * y) mod p = fint SECP a) ->
  exists r, secp_sqrt SECP a = Some r /\ reach SECP r /\ (fint SECP r * fint SECP r) mod p = fint SECP a.
Proof.
  intros Ha [y Hy]. destruct (wf_of_int SECP p SECP_valid y) as (b & Rb & Fb).
  destruct (secp_sqrt_square a b (reach_wf _ _ SECP_valid a Ha) (reach_wf _ _ SECP_valid b Rb)) as (r & Er & Wr & Hr).
  { rewrite <- Hy, Fb. apply Zmult_mod. }
  exists r. split; [exact Er|]. split; [exact (wf_reach _ _ SECP_valid r Wr)|exact Hr].
Qed.
Lemma secp_sqrt_some a : reach SECP a -> exists r, secp_sqrt SECP a = Some r /\ reach SECP r.
Proof.
  intro Ha. destruct (sqrt_chain SECP SECP_valid a (reach_wf _ _ SECP_valid a Ha)) as (r & Er & Wr & _).
  exists r. split; [exact Er|exact (wf_reach _ _ SECP_valid r Wr)].
Qed.
Lemma secp_sqrt_bad : exists a r, reach SECP a /\ secp_sqrt SECP a = Some r /\
  (fint SECP r * fint SECP r) mod p <> fint SECP a.
Proof.
  assert (B : match secp_sqrt SECP (neg SECP (one SECP)) with
    | Some r => (fint SECP r * fint SECP r) mod p <> fint SECP (neg SECP (one SECP)) | None => False end).
  { vm_compute. discriminate. }
  destruct (secp_sqrt SECP (neg SECP (one SECP))) as [r|] eqn:E; [|contradiction].
  exists (neg SECP (one SECP)), r. split; [apply reach_neg, reach_one|]. split; [exact E|exact B].
Qed.
Lemma api_all P q (V : valid P q) (Hq : prime q) :
  prime q /\
  (forall a, reach P a -> 0 <= fint P a < q) /\
  (forall a b, reach P a -> reach P b ->
     fint P (add P a b) = (fint P a + fint P b) mod q /\
     fint P (sub P a b) = (fint P a - fint P b) mod q /\
     fint P (neg P a) = (- fint P a) mod q /\
     fint P (double P a) = (2 * fint P a) mod q /\
     fint P (mul P a b) = (fint P a * fint P b) mod q /\
     fint P (square P a) = (fint P a * fint P a) mod q /\
     fint P (pow_by_self P a b) = (fint P a ^ fint P b) mod q /\
     (eqb a b = true <-> fint P a = fint P b) /\
     is_odd P a = Z.odd (fint P a)) /\
  fint P zero = 0 /\ fint P (one P) = 1 /\
  (forall a e, reach P a -> Forall u64 e ->
     pow_vartime P a e = pow P a e /\ fint P (pow P a e) = fint P a ^ of_words e mod q) /\
  (forall bs, length bs = 64%nat -> bytes_ok bs -> fint P (from_bytes_wide P bs) = of_le bs mod q) /\
  (forall bs, length bs = 32%nat -> bytes_ok bs ->
     (of_le bs < q -> exists a, from_bytes P bs = Some a /\ reach P a /\ fint P a = of_le bs /\ to_bytes P a = bs) /\
     (q <= of_le bs -> from_bytes P bs = None)) /\
  (forall a, reach P a -> length (to_bytes P a) = 32%nat /\ bytes_ok (to_bytes P a) /\
     of_le (to_bytes P a) < q /\ from_bytes P (to_bytes P a) = Some a) /\
  (forall a, reach P a -> to_be_bytes P a = rev (to_bytes P a) /\ from_sec1 P (to_be_bytes P a) = Some a).
Proof.
  split; [exact Hq|]. split; [exact (api_range P q V)|]. split.
  - intros a b Ha Hb. split; [apply (api_add P q V); assumption|].
    split; [apply (api_sub P q V); assumption|]. split; [apply (api_neg P q V); assumption|].
    split; [apply (api_double P q V); assumption|]. split; [apply (api_mul P q V); assumption|].
    split; [apply (api_square P q V); assumption|]. split; [apply (api_pow_by_self P q V); assumption|].
    split; [apply (api_eqb P q V); assumption|]. apply (api_odd P q V); assumption.
  - split; [exact (api_zero P q V)|]. split; [exact (api_one P q V)|]. split; [exact (api_pow P q V)|].
    split; [exact (api_wide P q V)|]. split; [exact (api_from_bytes P q V)|].
    split; [exact (api_to_bytes P q V)|]. exact (api_be P q V).
Qed.
