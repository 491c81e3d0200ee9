(** C56: the curve library implements a group of prime order with faithful encodings.
    C65: the constants of its [PrimeField] implementations. *)
From Coq Require Import String ZArith Znumtheory List Bool.
From Verif Require Import Base Fermat Primes Field Zq Limb LimbSpec CurveSpec Secq MathModel R1csModel CommitModel CommitSpec SigmaModel SumModel SumApi NizkModel NizkSpec NizkApi.
From Verif Require Import HashModel HashSpec HashApi SecqModel SecqSpec SecqApi.
Import ListNotations.
Local Open Scope Z_scope.

(** every point of y^2 = x^3 + 7 over the integers modulo n is a multiple of the library's
    generator by exactly one of 0, ..., p - 1: the group is cyclic of order p, a prime *)
Theorem C56_group_cyclic : forall P, on_curve secq P = true ->
  exists k, 0 <= k < ORDER /\ P = emul k (pq generator) /\
    forall j, 0 <= j < ORDER -> P = emul j (pq generator) -> j = k.
Proof. exact group_cyclic. Qed.
Print Assumptions C56_group_cyclic.
Theorem C56_prime_order : prime ORDER /\ forall P k, on_curve secq P = true -> P <> None -> (emul k P = None <-> (ORDER | k)).
Proof. exact (conj prime_p group_order). Qed.
Print Assumptions C56_prime_order.
(** the constants in Montgomery form stand for the base point and for 7 *)
Theorem C56_generator : good generator /\ pq generator = Some (fn gx, fn gy) /\ fq EQUATION_B = fn 7.
Proof. exact (conj (proj1 generator_good) (conj (proj2 generator_good) (proj2 R_B))). Qed.
Print Assumptions C56_generator.

(** products of scalars: no panic, the product modulo the order *)
Theorem C56_scalar_mul : forall a b, 0 <= a < ORDER -> 0 <= b < ORDER -> s_mul a b = Ok ((a * b) mod ORDER).
Proof. exact s_mul_ok. Qed.
Print Assumptions C56_scalar_mul.
(** arithmetic of scalars is arithmetic of multiples of points, and scalars stay reduced *)
Theorem C56_scalar_action : forall a b P, 0 <= a < ORDER -> 0 <= b < ORDER -> on_curve secq P = true ->
  0 <= s_add a b < ORDER /\ emul (s_add a b) P = eadd (emul a P) (emul b P) /\
  0 <= s_sub a b < ORDER /\ emul (s_sub a b) P = eadd (emul a P) (eopp (emul b P)) /\
  0 <= s_neg a < ORDER /\ emul (s_neg a) P = eopp (emul a P) /\
  0 <= s_double a < ORDER /\ emul (s_double a) P = eadd (emul a P) (emul a P) /\
  exists c, s_mul a b = Ok c /\ 0 <= c < ORDER /\ emul c P = emul a (emul b P).
Proof. exact scalar_action. Qed.
Print Assumptions C56_scalar_action.
(** a 256-bit integer is reduced modulo the order *)
Theorem C56_uint_reduced : forall w, 0 <= w < 2 ^ 256 -> from_uint_reduced w = Ok (w mod ORDER).
Proof. exact reduced_ok. Qed.
Print Assumptions C56_uint_reduced.
(** a scalar of the proof system enters the group operations with its own value *)
Theorem C56_scalar_conversion : forall s, reach SECP s -> decompress_scalar s = Ok (fint SECP s).
Proof. exact decompress_scalar_ok. Qed.
Print Assumptions C56_scalar_conversion.
(** reading a scalar: exactly the 32-byte strings below the order, each the encoding of what is read *)
Theorem C56_scalar_repr : forall bs, length bs = 32%nat -> bytes_ok bs ->
  s_from_repr bs = (let v := of_le (rev bs) in if v <? ORDER then Some v else None) /\
  (forall s, s_from_repr bs = Some s -> 0 <= s < ORDER /\ s_to_repr s = bs).
Proof. exact repr_ok. Qed.
Print Assumptions C56_scalar_repr.
Theorem C56_scalar_roundtrip : forall s, 0 <= s < ORDER -> s_from_repr (s_to_repr s) = Some s.
Proof. exact repr_round. Qed.
Print Assumptions C56_scalar_roundtrip.
(** the operations of [ff::Field] left unimplemented abort on every argument *)
Theorem C56_field_trait_refuted : forall a l, s_square a = Panic /\ s_invert a = Panic /\ s_sqrt a = Panic /\ s_sum l = Panic /\ s_product l = Panic.
Proof. exact (fun a l => conj eq_refl (conj eq_refl (conj eq_refl (conj eq_refl eq_refl)))). Qed.
Print Assumptions C56_field_trait_refuted.

(** points: what is compressed is read back *)
Theorem C56_point_roundtrip : forall ksqrt P, ksqrt_ok n ksqrt -> good P ->
  decompress_point ksqrt (compress_point P) = Ok (Some P).
Proof. exact decode_encode. Qed.
Print Assumptions C56_point_roundtrip.
(** reading a point never panics; what is read is on the curve, and its compressed form is the
    string read unless that was the uncompressed form; a refused string encodes nothing *)
Theorem C56_point_decoding : forall ksqrt bs, ksqrt_ok n ksqrt -> bytes_ok bs ->
  match decompress_point ksqrt bs with
  | Ok (Some P) => good P /\ (length bs <> 65%nat -> compress_point P = bs)
  | Ok None => forall P, good P -> compress_point P <> bs
  | _ => False
  end.
Proof. exact decode_ok. Qed.
Print Assumptions C56_point_decoding.

(** the generators of the commitments: one point of the group per block of 128 bytes, no panic *)
Theorem C56_generators : forall xof : nat -> list Z, (forall i, length (xof i) = 128%nat /\ bytes_ok (xof i)) ->
  exists stream : nat -> SecqG, forall i,
    gens_point sum_points xof i = Ok (proj1_sig (stream i : SQ)) /\
    exists P1 P2, proj1_sig (stream i : SQ) = eadd (Some P1) (Some P2) /\
      half_hash (firstn 64 (xof i)) P1 /\ half_hash (skipn 64 (xof i)) P2.
Proof. exact gens_on. Qed.
Print Assumptions C56_generators.

(** the group of the library, with scalars acting by multiples, and its encoding meet the
    assumptions of the protocol theorems: completeness (C30) for the group actually used *)
Theorem C56_group_instance :
  gcar SecqG = { P : option (Fn * Fn) | on_curve secq P = true } /\
  (forall a b : SQ, proj1_sig (gadd (m:=SecqG) a b : SQ) = eadd (proj1_sig a) (proj1_sig b)) /\
  (forall (x : Fp) (a : SQ), proj1_sig (gmul (m:=SecqG) x a : SQ) = emul (zval x) (proj1_sig a)) /\
  (forall (f : Z -> option Z) (Hf : ksqrt_ok n f) (a : SQ), exists P, good P /\ pq P = proj1_sig a /\
     compress (SecqE f Hf) (a : SecqG) = compress_point P).
Proof.
  exact (conj eq_refl (conj (fun a b => eq_refl) (conj (fun x a => eq_refl)
    (fun f Hf a => ex_intro _ (lift_pt a) (conj (proj1 (lift_pt_ok a)) (conj (proj2 (lift_pt_ok a)) eq_refl)))))).
Qed.
Print Assumptions C56_group_instance.
Theorem C56_nizk_complete : forall (f : Z -> option Z) (Hf : ksqrt_ok n f) (H : log (SecqE f Hf) -> Fp)
    (bytes : Type) (parse : bytes -> option Fp) (digest_of : r1cs Fp -> list nat)
    (nc nv ni : nat) (A B C : list (nat * nat * bytes)) (I : instance Fp (list nat)) (stream : nat -> SecqG) (g : r1csgens SecqG)
    (vars input : list Fp) (seed : Fp) (tr : log (SecqE f Hf)),
  (1 <= nc)%nat -> instance_new parse digest_of nc nv ni A B C = Ok I -> instance_is_sat I vars input = Ok true ->
  nizkgens_new nv ni stream = Ok g ->
  let b := Nat.log2_up (next_pow2 (Nat.max nv (ni + 1))) in
  (b - b / 2 < 32)%nat ->
  (forall pf tr', nizk_prove H I vars input g seed tr = Ok (pf, tr') -> nizk_verify H pf I input tr g = Ok tr') /\
  unless H "u"%string f0 (b - b / 2) (exists r, nizk_prove H I vars input g seed tr = Ok r).
Proof. exact (fun f Hf H => @api_nizk_complete Fp SecqG (SecqE f Hf) H (proj1 two_three_fp) (proj2 two_three_fp)). Qed.
Print Assumptions C56_nizk_complete.

(** the base point: its encoding, its opposite is read with the other tag, an abscissa off the
    curve is refused *)
Example C56_case : ksqrt_ok n ksqrt_ref /\
  compress_point generator = 3 :: rev (le_bytes 32 gx) /\
  decompress_point ksqrt_ref (compress_point generator) = Ok (Some generator) /\
  s_mul (ORDER - 1) (ORDER - 1) = Ok 1 /\ from_uint_reduced (2 ^ 256 - 1) = Ok (2 ^ 32 + 976) /\
  s_from_repr (rev (le_bytes 32 ORDER)) = None /\ s_add (ORDER - 1) 3 = 2 /\ s_sub 2 3 = ORDER - 1 /\ s_neg 0 = 0.
Proof.
  split; [exact ksqrt_ref_ok|]. split; [vm_compute; reflexivity|].
  split; [exact (C56_point_roundtrip ksqrt_ref generator ksqrt_ref_ok (proj1 generator_good))|].
  split; [rewrite C56_scalar_mul by (split; [discriminate|reflexivity]); reflexivity|].
  split; [rewrite C56_uint_reduced by (split; [discriminate|reflexivity]); reflexivity|]. repeat split.
Qed.

(** C65.  [ff::PrimeField] asks for [S] with 2^S the largest power of two dividing the modulus
    minus one and for a primitive 2^S-th root of unity *)
Theorem C65_secp_constants : two_adic_root p SECP_S (fint SECP secp_root_of_unity).
Proof. exact secp_root_ok. Qed.
Print Assumptions C65_secp_constants.
(** the base field declares S = 1; its root of unity is one for S = 6 *)
Theorem C65_secq_constants_refuted :
  ~ two_adic_root n SECQ_S (fint SECQ secq_root_of_unity) /\ two_adic_root n 6 (fint SECQ secq_root_of_unity).
Proof. exact secq_root_bad. Qed.
Print Assumptions C65_secq_constants_refuted.
(** the scalars declare S = 4 and a number that is no root of unity of that order *)
Theorem C65_scalar_constants_refuted : exists z, s_root_of_unity = Ok z /\ ~ two_adic_root ORDER SCALAR_S z /\
  z ^ (2 ^ SCALAR_S) mod ORDER <> 1 /\ (ORDER - 1) mod 2 ^ SCALAR_S <> 0.
Proof. exact scalar_root_bad. Qed.
Print Assumptions C65_scalar_constants_refuted.
(** the powers of [multiplicative_generator()] should be all nonzero elements: they are for the
    secp field, and for the scalars they are not, 3 being none of them *)
Theorem C65_secp_generator : generates p (fint SECP secp_generator).
Proof. exact secp_generates. Qed.
Print Assumptions C65_secp_generator.
Theorem C65_scalar_generator_refuted : ~ generates ORDER s_generator /\ ~ exists i, 0 <= i /\ s_generator ^ i mod ORDER = 3.
Proof. exact scalar_not_generates. Qed.
Print Assumptions C65_scalar_generator_refuted.
(** the bits of the characteristic are given most significant byte first, not little-endian *)
Theorem C65_char_bits_refuted : of_le char_le_bits <> ORDER /\ of_le (rev char_le_bits) = ORDER.
Proof. exact char_bits_bad. Qed.
Print Assumptions C65_char_bits_refuted.
Example C65_case : (ORDER - 1) mod 2 ^ 1 = 0 /\ (ORDER - 1) mod 2 ^ 2 <> 0 /\ (n - 1) mod 2 ^ 6 = 0 /\ (n - 1) mod 2 ^ 7 <> 0.
Proof. repeat split; vm_compute; try reflexivity; discriminate. Qed.
