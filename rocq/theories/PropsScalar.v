(** Properties C01-C09: scalar and field-element arithmetic.
    [reach P a]: [a] can be obtained through the public API (LimbSpec.v).
    [fint P a]: the integer whose little-endian bytes [to_bytes] returns. *)
From Coq Require Import ZArith List Bool Znumtheory Lia.
From Verif Require Import Base Limb LimbSpec LimbProofs LimbInt LimbInst LimbApi Primes.
Import ListNotations.
Local Open Scope Z_scope.

Theorem C01_modulus : p = 2 ^ 256 - 2 ^ 32 - 977 /\ prime p.
Proof. exact (conj eq_refl prime_p). Qed.
Print Assumptions C01_modulus.

Theorem C01_scalar_arithmetic : forall a b, reach SCALAR a -> reach SCALAR b ->
  0 <= fint SCALAR a < p /\
  fint SCALAR (add SCALAR a b) = (fint SCALAR a + fint SCALAR b) mod p /\
  fint SCALAR (sub SCALAR a b) = (fint SCALAR a - fint SCALAR b) mod p /\
  fint SCALAR (neg SCALAR a) = (- fint SCALAR a) mod p /\
  fint SCALAR (double SCALAR a) = (2 * fint SCALAR a) mod p /\
  fint SCALAR (mul SCALAR a b) = (fint SCALAR a * fint SCALAR b) mod p /\
  fint SCALAR (square SCALAR a) = (fint SCALAR a * fint SCALAR a) mod p /\
  fint SCALAR zero = 0 /\ fint SCALAR (one SCALAR) = 1 /\
  (eqb a b = true <-> fint SCALAR a = fint SCALAR b).
Proof.
  exact (fun a b Ha Hb => conj (api_range _ _ SCALAR_valid a Ha)
    (conj (api_add _ _ SCALAR_valid a b Ha Hb) (conj (api_sub _ _ SCALAR_valid a b Ha Hb)
    (conj (api_neg _ _ SCALAR_valid a Ha) (conj (api_double _ _ SCALAR_valid a Ha)
    (conj (api_mul _ _ SCALAR_valid a b Ha Hb) (conj (api_square _ _ SCALAR_valid a Ha)
    (conj (api_zero _ _ SCALAR_valid) (conj (api_one _ _ SCALAR_valid)
    (api_eqb _ _ SCALAR_valid a b Ha Hb)))))))))).
Qed.
Print Assumptions C01_scalar_arithmetic.

(** the limb representation is canonical: zero top limb, and one representation per value *)
Theorem C01_scalar_canonical : forall a b, reach SCALAR a -> reach SCALAR b ->
  l4 a = 0 /\ (fint SCALAR a = fint SCALAR b -> a = b).
Proof.
  exact (fun a b Ha Hb => conj (proj1 (api_limb4 _ _ SCALAR_valid a Ha)) (api_unique _ _ SCALAR_valid a b Ha Hb)).
Qed.
Print Assumptions C01_scalar_canonical.

(** iterator sums and products *)
Theorem C01_scalar_sum_product : forall l, Forall (reach SCALAR) l ->
  fint SCALAR (sum SCALAR l) = fold_right Z.add 0 (map (fint SCALAR) l) mod p /\
  fint SCALAR (product SCALAR l) = fold_right Z.mul 1 (map (fint SCALAR) l) mod p.
Proof. exact (fun l H => conj (api_sum _ _ SCALAR_valid l H) (api_product _ _ SCALAR_valid l H)). Qed.
Print Assumptions C01_scalar_sum_product.

(** a non-trivial case: p-1 (from raw words) and 2, with wrap-around *)
Example C01_case :
  let a := from_raw SCALAR 0xfffffffefffffc2e 0xffffffffffffffff 0xffffffffffffffff 0xffffffffffffffff in
  let b := from_u64 SCALAR 2 in
  reach SCALAR a /\ reach SCALAR b /\ fint SCALAR a = p - 1 /\ fint SCALAR (add SCALAR a b) = 1 /\
  fint SCALAR (mul SCALAR a b) = p - 2.
Proof.
  cbv zeta. split; [|split]; [apply reach_raw; split; vm_compute; congruence|apply reach_u64; split; vm_compute; congruence|].
  vm_compute. repeat split.
Qed.

Theorem C02_from_bytes : forall bs, length bs = 32%nat -> bytes_ok bs ->
  (of_le bs < p -> exists a, from_bytes SCALAR bs = Some a /\ reach SCALAR a /\ fint SCALAR a = of_le bs /\
                             to_bytes SCALAR a = bs) /\
  (p <= of_le bs -> from_bytes SCALAR bs = None).
Proof. exact (api_from_bytes _ _ SCALAR_valid). Qed.
Print Assumptions C02_from_bytes.
Theorem C02_to_bytes : forall a, reach SCALAR a ->
  length (to_bytes SCALAR a) = 32%nat /\ bytes_ok (to_bytes SCALAR a) /\ of_le (to_bytes SCALAR a) < p /\
  from_bytes SCALAR (to_bytes SCALAR a) = Some a.
Proof. exact (api_to_bytes _ _ SCALAR_valid). Qed.
Print Assumptions C02_to_bytes.
Example C02_case : of_le (le_bytes 32 (p - 1)) = p - 1 /\ from_bytes SCALAR (le_bytes 32 p) = None /\
  from_bytes SCALAR (le_bytes 32 (p - 1)) <> None.
Proof. vm_compute. repeat split. discriminate. Qed.

Theorem C03_wide : forall bs, length bs = 64%nat -> bytes_ok bs ->
  reach SCALAR (from_bytes_wide SCALAR bs) /\ fint SCALAR (from_bytes_wide SCALAR bs) = of_le bs mod p.
Proof. exact (fun bs HL Hb => conj (reach_wide SCALAR bs HL Hb) (api_wide _ _ SCALAR_valid bs HL Hb)). Qed.
Print Assumptions C03_wide.
Theorem C03_raw : forall a b c d, u64 a -> u64 b -> u64 c -> u64 d ->
  fint SCALAR (from_raw SCALAR a b c d) = of_words [a; b; c; d] mod p.
Proof. exact (api_raw _ _ SCALAR_valid). Qed.
Print Assumptions C03_raw.
Theorem C03_u64 : forall v, u64 v -> fint SCALAR (from_u64 SCALAR v) = v mod p.
Proof. exact (api_u64 _ _ SCALAR_valid). Qed.
Print Assumptions C03_u64.
(** [Scalar::random]: the eight words drawn from the generator, reduced *)
Theorem C03_random : forall a b c d e f g h, u64 a -> u64 b -> u64 c -> u64 d -> u64 e -> u64 f -> u64 g -> u64 h ->
  fint SCALAR (random SCALAR a b c d e f g h) = of_words [a; b; c; d; e; f; g; h] mod p.
Proof. exact (api_random _ _ SCALAR_valid). Qed.
Print Assumptions C03_random.
Example C03_case : fint SCALAR (from_bytes_wide SCALAR (repeat 255 64)) = (2 ^ 512 - 1) mod p /\
  bytes_ok (repeat 255 64) /\ fint SCALAR (from_raw SCALAR 0xffffffffffffffff 0xffffffffffffffff 0xffffffffffffffff 0xffffffffffffffff) = 2 ^ 256 - 1 - p.
Proof.
  split; [vm_compute; reflexivity|]. split; [|vm_compute; reflexivity].
  unfold bytes_ok. apply Forall_forall. intros x Hx. apply repeat_spec in Hx. lia.
Qed.

Theorem C04_pow : forall a e, reach SCALAR a -> Forall u64 e ->
  pow_vartime SCALAR a e = pow SCALAR a e /\ fint SCALAR (pow SCALAR a e) = fint SCALAR a ^ of_words e mod p.
Proof. exact (api_pow _ _ SCALAR_valid). Qed.
Print Assumptions C04_pow.
Example C04_case : reach SCALAR (from_u64 SCALAR 3) /\ Forall u64 [5; 0; 0; 0] /\
  fint SCALAR (pow SCALAR (from_u64 SCALAR 3) [5; 0; 0; 0]) = 243 /\
  fint SCALAR (pow SCALAR zero [0; 0; 0; 0]) = 1.
Proof.
  assert (H : reach SCALAR (from_u64 SCALAR 3)) by (apply reach_u64; split; vm_compute; congruence).
  assert (H5 : Forall u64 [5; 0; 0; 0]) by (repeat constructor; vm_compute; congruence).
  assert (H0 : Forall u64 [0; 0; 0; 0]) by (repeat constructor; vm_compute; congruence).
  split; [exact H|]. split; [exact H5|].
  destruct (C04_pow _ _ H H5) as [_ ->]. destruct (C04_pow _ _ (reach_zero SCALAR) H0) as [_ ->].
  split; vm_compute; reflexivity.
Qed.

Theorem C05_invert : forall modinv, modinv_ok p modinv -> forall a, reach SCALAR a ->
  (fint SCALAR a <> 0 -> exists b, invert SCALAR modinv a = Some b /\ reach SCALAR b /\
                                   (fint SCALAR a * fint SCALAR b) mod p = 1) /\
  (fint SCALAR a = 0 -> invert SCALAR modinv a = None).
Proof. exact (api_invert _ _ SCALAR_valid). Qed.
Print Assumptions C05_invert.
Theorem C05_batch_invert : forall modinv, modinv_ok p modinv -> forall l, Forall (reach SCALAR) l ->
  (Forall (fun x => fint SCALAR x <> 0) l ->
     exists out r, batch_invert SCALAR (invert SCALAR modinv) l = Ok (out, r) /\
       Forall (reach SCALAR) out /\ reach SCALAR r /\
       Forall2 (fun x y => (fint SCALAR x * fint SCALAR y) mod p = 1) l out /\
       (fint SCALAR r * fold_right Z.mul 1 (map (fint SCALAR) l)) mod p = 1) /\
  (Exists (fun x => fint SCALAR x = 0) l -> batch_invert SCALAR (invert SCALAR modinv) l = Panic).
Proof.
  exact (fun f Hf l => api_batch _ _ SCALAR_valid _ l (invert_inv_ok _ _ SCALAR_valid f Hf) prime_p).
Qed.
Print Assumptions C05_batch_invert.
Example C05_case : modinv_ok p (modinv_ref p) /\
  (invert SCALAR (modinv_ref p) (from_u64 SCALAR 7) <> None) /\
  batch_invert SCALAR (invert SCALAR (modinv_ref p)) [from_u64 SCALAR 7; zero] = Panic /\
  is_ok (batch_invert SCALAR (invert SCALAR (modinv_ref p)) [from_u64 SCALAR 7; from_u64 SCALAR 9]) = true /\
  batch_invert SCALAR (invert SCALAR (modinv_ref p)) [] = Ok ([], one SCALAR).
Proof.
  split; [exact (modinv_ref_ok p prime_p)|]. split; [vm_compute; discriminate|].
  split; [vm_compute; reflexivity|]. split; vm_compute; reflexivity.
Qed.

Theorem C06_serde_roundtrip : forall a, reach SCALAR a ->
  scalar_deserialize SCALAR (scalar_serialize SCALAR a) = Ok a.
Proof. exact (api_serde _ _ SCALAR_valid). Qed.
Print Assumptions C06_serde_roundtrip.
(** what the deserialiser does on any byte sequence: reduction, or a panic when it is short *)
Theorem C06_deserialize : forall bs, bytes_ok bs ->
  ((32 <= length bs)%nat -> exists a, scalar_deserialize SCALAR bs = Ok a /\ reach SCALAR a /\
                                      fint SCALAR a = of_le (firstn 32 bs) mod p) /\
  ((length bs < 32)%nat -> scalar_deserialize SCALAR bs = Panic).
Proof. exact (api_visit_seq _ _ SCALAR_valid). Qed.
Print Assumptions C06_deserialize.
(** the expectation "one accepted 32-byte encoding per scalar" is false *)
Theorem C06_unique_encoding_refuted : exists bs1 bs2 a,
  bytes_ok bs1 /\ bytes_ok bs2 /\ length bs1 = 32%nat /\ length bs2 = 32%nat /\ bs1 <> bs2 /\
  scalar_deserialize SCALAR bs1 = Ok a /\ scalar_deserialize SCALAR bs2 = Ok a.
Proof.
  exists (le_bytes 32 1), (le_bytes 32 (p + 1)), (one SCALAR).
  split; [apply le_bytes_ok|]. split; [apply le_bytes_ok|].
  split; [apply le_bytes_length|]. split; [apply le_bytes_length|].
  split; [vm_compute; discriminate|]. split; vm_compute; reflexivity.
Qed.
Print Assumptions C06_unique_encoding_refuted.
Example C06_case : scalar_deserialize SCALAR (scalar_serialize SCALAR (from_u64 SCALAR 77)) = Ok (from_u64 SCALAR 77)
  /\ scalar_deserialize SCALAR [1; 2; 3] = Panic.
Proof. split; vm_compute; reflexivity. Qed.

(** C07: both FieldElement types.  [field_api P q] is the whole arithmetic contract. *)
Definition field_api (P : params) (q : Z) : Prop :=
  prime q /\
  (forall a, reach P a -> 0 <= fint P a < q) /\
  (forall a b, reach P a -> reach P b ->
     fint P (add P a b) = (fint P a + fint P b) mod q /\
     fint P (sub P a b) = (fint P a - fint P b) mod q /\
     fint P (neg P a) = (- fint P a) mod q /\
     fint P (double P a) = (2 * fint P a) mod q /\
     fint P (mul P a b) = (fint P a * fint P b) mod q /\
     fint P (square P a) = (fint P a * fint P a) mod q /\
     fint P (pow_by_self P a b) = (fint P a ^ fint P b) mod q /\
     (eqb a b = true <-> fint P a = fint P b) /\
     is_odd P a = Z.odd (fint P a)) /\
  fint P zero = 0 /\ fint P (one P) = 1 /\
  (forall a e, reach P a -> Forall u64 e ->
     pow_vartime P a e = pow P a e /\ fint P (pow P a e) = fint P a ^ of_words e mod q) /\
  (forall bs, length bs = 64%nat -> bytes_ok bs -> fint P (from_bytes_wide P bs) = of_le bs mod q) /\
  (forall bs, length bs = 32%nat -> bytes_ok bs ->
     (of_le bs < q -> exists a, from_bytes P bs = Some a /\ reach P a /\ fint P a = of_le bs /\ to_bytes P a = bs) /\
     (q <= of_le bs -> from_bytes P bs = None)) /\
  (forall a, reach P a -> length (to_bytes P a) = 32%nat /\ bytes_ok (to_bytes P a) /\
     of_le (to_bytes P a) < q /\ from_bytes P (to_bytes P a) = Some a) /\
  (forall a, reach P a -> to_be_bytes P a = rev (to_bytes P a) /\ from_sec1 P (to_be_bytes P a) = Some a).

Theorem C07_secp_field : field_api SECP p.
Proof. exact (api_all SECP p SECP_valid prime_p). Qed.
Print Assumptions C07_secp_field.
Theorem C07_secq_field : field_api SECQ n.
Proof. exact (api_all SECQ n SECQ_valid prime_n). Qed.
Print Assumptions C07_secq_field.
Theorem C07_secp_invert : forall modinv, modinv_ok p modinv -> forall a, reach SECP a ->
  (fint SECP a <> 0 -> exists b, invert SECP modinv a = Some b /\ reach SECP b /\
                                 (fint SECP a * fint SECP b) mod p = 1) /\
  (fint SECP a = 0 -> invert SECP modinv a = None).
Proof. exact (api_invert _ _ SECP_valid). Qed.
Print Assumptions C07_secp_invert.
(** the addition chain of the group-order field *)
Theorem C07_secq_invert : forall a, reach SECQ a ->
  (fint SECQ a <> 0 -> exists b, secq_invert SECQ a = Some b /\ reach SECQ b /\
                                 (fint SECQ a * fint SECQ b) mod n = 1) /\
  (fint SECQ a = 0 -> secq_invert SECQ a = None).
Proof. exact (inv_ok_invert_ok _ _ SECQ_valid _ secq_invert_spec). Qed.
Print Assumptions C07_secq_invert.
Example C07_case : reach SECQ (from_u64 SECQ 12) /\ fint SECQ (from_u64 SECQ 12) = 12 /\
  exists b, secq_invert SECQ (from_u64 SECQ 12) = Some b /\ (12 * fint SECQ b) mod n = 1.
Proof.
  assert (H : reach SECQ (from_u64 SECQ 12)) by (apply reach_u64; split; vm_compute; congruence).
  assert (E : fint SECQ (from_u64 SECQ 12) = 12) by (vm_compute; reflexivity).
  split; [exact H|]. split; [exact E|].
  destruct (proj1 (C07_secq_invert _ H) ltac:(rewrite E; discriminate)) as (b & Eb & _ & M).
  exists b. split; [exact Eb|]. rewrite E in M. exact M.
Qed.

(** C08: what serialise-then-deserialise computes, for every element *)
Theorem C08_serde_computes : forall a,
  (reach SECP a -> exists b, fe_deserialize SECP (fe_serialize a) = Ok b /\ reach SECP b /\
                             fint SECP b = (fint SECP a * 2 ^ 256) mod p) /\
  (reach SECQ a -> exists b, fe_deserialize SECQ (fe_serialize a) = Ok b /\ reach SECQ b /\
                             fint SECQ b = (fint SECQ a * 2 ^ 256) mod n).
Proof. exact (fun a => conj (api_fe_serde _ _ SECP_valid a) (api_fe_serde _ _ SECQ_valid a)). Qed.
Print Assumptions C08_serde_computes.
(** hence the round trip fails, for every element but zero *)
Theorem C08_serde_roundtrip_refuted : forall a,
  (reach SECP a -> fint SECP a <> 0 -> fe_deserialize SECP (fe_serialize a) <> Ok a) /\
  (reach SECQ a -> fint SECQ a <> 0 -> fe_deserialize SECQ (fe_serialize a) <> Ok a).
Proof.
  exact (fun a => conj (fe_serde_fails SECP p SECP_valid prime_p ltac:(vm_compute; discriminate) a)
                       (fe_serde_fails SECQ n SECQ_valid prime_n ltac:(vm_compute; discriminate) a)).
Qed.
Print Assumptions C08_serde_roundtrip_refuted.
Example C08_case : reach SECP (one SECP) /\ fint SECP (one SECP) <> 0 /\
  fe_deserialize SECP (fe_serialize zero) = Ok zero.
Proof. split; [apply reach_one|]. split; vm_compute; congruence. Qed.

(** C09 *)
Theorem C09_secp_sqrt_of_square : forall a, reach SECP a -> (exists y, (y * y) mod p = fint SECP a) ->
  exists r, secp_sqrt SECP a = Some r /\ reach SECP r /\ (fint SECP r * fint SECP r) mod p = fint SECP a.
Proof. exact secp_sqrt_of_square. Qed.
Print Assumptions C09_secp_sqrt_of_square.
(** [Some] is returned for every element; for a non-square the result is a root of the opposite *)
Theorem C09_secp_sqrt_never_none : forall a, reach SECP a -> exists r, secp_sqrt SECP a = Some r /\ reach SECP r.
Proof. exact secp_sqrt_some. Qed.
Print Assumptions C09_secp_sqrt_never_none.
Theorem C09_secp_sqrt_sound_refuted : exists a r, reach SECP a /\ secp_sqrt SECP a = Some r /\
  (fint SECP r * fint SECP r) mod p <> fint SECP a.
Proof. exact secp_sqrt_bad. Qed.
Print Assumptions C09_secp_sqrt_sound_refuted.
Theorem C09_secq_sqrt : forall ksqrt, ksqrt_ok n ksqrt -> forall a, reach SECQ a ->
  match secq_sqrt SECQ ksqrt a with
  | Ok (Some r) => reach SECQ r /\ (fint SECQ r * fint SECQ r) mod n = fint SECQ a
  | Ok None => forall y, (y * y) mod n <> fint SECQ a
  | _ => False
  end.
Proof. exact (fun f Hf a => api_ksqrt _ _ SECQ_valid f a Hf). Qed.
Print Assumptions C09_secq_sqrt.
Example C09_case :
  (exists y, (y * y) mod p = fint SECP (from_u64 SECP 9)) /\ reach SECP (from_u64 SECP 9).
Proof.
  split; [exists 3; vm_compute; reflexivity|].
  apply reach_u64; split; vm_compute; congruence.
Qed.
