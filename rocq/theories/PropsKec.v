(** Properties C45 and C46: the Keccak and address circuits and the two membership
    circuits.  [keccak_f], [keccak256] and [eth_address] are the FIPS 202 functions of
    KecSpec.v on Booleans; [bit_of] writes a Boolean as a field element. *)
From Coq Require Import ZArith List Bool.
From Verif Require Import Base Primes Field Zq CurveSpec Secp CircModel CircSpec CircBits CircApi CircEx.
From Verif Require Import PosModel PosSpec PosApi KecModel KecSpec KecApi KecEx.
Import ListNotations.
Local Open Scope Z_scope.

(** ** C45 *)
Theorem C45_steps : forall (K : Fld) (s : list bool), length s = 1600%nat ->
  theta (map bit_of s) = map (@bit_of K) (to_string 1600 (k_theta (of_string s))) /\
  rhopi (map bit_of s) = map (@bit_of K) (to_string 1600 (k_pi (k_rho (of_string s)))) /\
  chi (map bit_of s) = map (@bit_of K) (to_string 1600 (k_chi (of_string s))) /\
  (forall r, (r < 24)%nat -> iota r (map bit_of s) = map (@bit_of K) (to_string 1600 (k_iota r (of_string s)))) /\
  keccakf (map bit_of s) = map (@bit_of K) (to_string 1600 (keccak_f (of_string s))).
Proof. exact (@steps_ok). Qed.
Print Assumptions C45_steps.
Example C45_steps_case : length (repeat true 1600) = 1600%nat. Proof. exact (repeat_length true 1600). Qed.

Theorem C45_keccak256 : forall (K : Fld) (m : list bool), (length m <= 1080)%nat ->
  keccak (length m) 256 (map bit_of m) = map (@bit_of K) (keccak256 m).
Proof. exact (@keccak_ok). Qed.
Print Assumptions C45_keccak256.
Example C45_keccak256_case : (length (@nil bool) <= 1080)%nat /\
  be_num (bytes_of_bits 32 (keccak256 [])) = 0xc5d2460186f7233c927e7db2dcc703c0e500b653ca82273b7bfad8045d85a470.
Proof. exact (conj (Nat.le_0_l _) digest_empty). Qed.

(** PubkeyToAddress on the key (X, Y), least significant bits first, Y below X *)
Theorem C45_address : forall X Y : Z, pubkey_to_address (zbits 256 Y ++ zbits 256 X) = fp (eth_address X Y).
Proof. exact address_ok. Qed.
Print Assumptions C45_address.
Theorem C45_address_range : forall X Y : Z, 0 <= eth_address X Y < 2 ^ 160.
Proof. exact address_bound. Qed.
Print Assumptions C45_address_range.
Example C45_address_case : eth_address gx gy = 0x7E5F4552091A69125d5DfCb7b8C2659029395Bdf.
Proof. exact address_base. Qed.

(** ** C46 *)
(** what a satisfying assignment of EfficientECDSAToAddr is *)
Theorem C46_to_addr : forall (w : addr_adv) (s Tx Ty Ux Uy a : Fp), eff_ecdsa_to_addr w s Tx Ty Ux Uy = Some a <->
  exists Q X Y, eff_ecdsa (ad_ecdsa w) s Tx Ty Ux Uy = Some Q /\ 0 <= X < 2 ^ 256 /\ 0 <= Y < 2 ^ 256 /\
    Q = (fp X, fp Y) /\ ad_x w = zbits 256 X /\ ad_y w = zbits 256 Y /\ a = fp (eth_address X Y).
Proof. exact to_addr_iff. Qed.
Print Assumptions C46_to_addr.

(** PubKeyMembership: the tree over the keys contains the point the ECDSA gadget computed
    (or a hash on the path collides with one in the tree); outside the exceptional cases
    of C38-C40 this is a key for which (r, (2^256 + k) mod n) is a signature of m *)
Theorem C46_pubkey_sound : forall (nl : nat) (w : mul_adv * ac_adv Fp) (s : Fp) (m r : Z) (x y : Fp) (ri : Z) (Tx Ty : Fp)
    (path sibs : list Fp) (keys : nat -> Fp * Fp),
  0 < r < n -> secp_point (Some (x, y)) -> zval x mod n = r -> (r * ri) mod n = 1 -> eff_T ri (Some (x, y)) = Some (Tx, Ty) ->
  let U := enc (eff_U ri m) in
  let leaves := fun i => pos2 (fst (keys i)) (snd (keys i)) in
  pubkey_membership nl w s (node pos2 leaves nl 0) Tx Ty (fst U) (snd U) path sibs = true ->
  exists o bits k, eff_ecdsa w s Tx Ty (fst U) (snd U) = Some o /\ path = map bit_of bits /\ (index_of bits < 2 ^ nl)%nat /\
    0 <= k < 2 ^ 256 /\
    (o = keys (index_of bits) \/
     collide pos2 (o :: path_inputs pos2 (pos2 (fst o) (snd o)) bits sibs)
       (keys (index_of bits) :: path_inputs pos2 (leaves (index_of bits)) bits (siblings pos2 leaves 0 bits))) /\
    (let M := emul (2 ^ 256 + k) (Some (Tx, Ty)) in
     k <> kfree -> tail_ok k (Some (Tx, Ty)) -> M <> eff_U ri m \/ M = None -> ~ degenerate M (eff_U ri m) ->
     (2 ^ 256 + k) mod n <> 0 ->
     exists Q, o = enc Q /\ ecdsa_ok Q m r ((2 ^ 256 + k) mod n)).
Proof. exact pubkey_sound. Qed.
Print Assumptions C46_pubkey_sound.

Theorem C46_pubkey_complete : forall (dv : Fp -> Fp -> Fp) (nl : nat) (Q : option (Fp * Fp)) (m r s : Z) (x y : Fp) (ri : Z)
    (Tx Ty : Fp) (keys : nat -> Fp * Fp) (i : nat),
  division dv -> 0 < r < n -> 0 < s < n -> secp_point (Some (x, y)) -> zval x mod n = r -> (r * ri) mod n = 1 ->
  eff_T ri (Some (x, y)) = Some (Tx, Ty) -> Q = eadd (emul s (Some (Tx, Ty))) (eff_U ri m) ->
  ~ carry_lost s -> tail_ok ((s - 2 ^ 256) mod n) (Some (Tx, Ty)) -> ~ degenerate (emul s (Some (Tx, Ty))) (eff_U ri m) ->
  (i < 2 ^ nl)%nat -> keys i = enc Q ->
  let U := enc (eff_U ri m) in
  let leaves := fun i => pos2 (fst (keys i)) (snd (keys i)) in
  exists bits, length bits = nl /\ index_of bits = i /\
    pubkey_membership nl (h_eff dv (fp s) Tx Ty (fst U) (snd U)) (fp s) (node pos2 leaves nl 0) Tx Ty (fst U) (snd U)
      (map bit_of bits) (siblings pos2 leaves 0 bits) = true.
Proof. exact pubkey_complete. Qed.
Print Assumptions C46_pubkey_complete.

(** AddrMembership *)
Theorem C46_addr_sound : forall (nl : nat) (w : addr_adv) (s : Fp) (m r : Z) (x y : Fp) (ri : Z) (Tx Ty : Fp)
    (path sibs : list Fp) (addrs : nat -> Z),
  0 < r < n -> secp_point (Some (x, y)) -> zval x mod n = r -> (r * ri) mod n = 1 -> eff_T ri (Some (x, y)) = Some (Tx, Ty) ->
  (forall i, 0 <= addrs i < 2 ^ 160) ->
  let U := enc (eff_U ri m) in
  let leaves := fun i => fp (addrs i) in
  addr_membership nl w s (node pos2 leaves nl 0) Tx Ty (fst U) (snd U) path sibs = true ->
  exists bits X Y k, eff_ecdsa (ad_ecdsa w) s Tx Ty (fst U) (snd U) = Some (fp X, fp Y) /\ path = map bit_of bits /\
    (index_of bits < 2 ^ nl)%nat /\ 0 <= X < 2 ^ 256 /\ 0 <= Y < 2 ^ 256 /\ 0 <= k < 2 ^ 256 /\
    (addrs (index_of bits) = eth_address X Y \/
     collide pos2 (path_inputs pos2 (fp (eth_address X Y)) bits sibs)
       (path_inputs pos2 (leaves (index_of bits)) bits (siblings pos2 leaves 0 bits))) /\
    (let M := emul (2 ^ 256 + k) (Some (Tx, Ty)) in
     k <> kfree -> tail_ok k (Some (Tx, Ty)) -> M <> eff_U ri m \/ M = None -> ~ degenerate M (eff_U ri m) ->
     (2 ^ 256 + k) mod n <> 0 ->
     exists Q, (fp X, fp Y) = enc Q /\ ecdsa_ok Q m r ((2 ^ 256 + k) mod n)).
Proof. exact addr_sound. Qed.
Print Assumptions C46_addr_sound.

Theorem C46_addr_complete : forall (dv : Fp -> Fp -> Fp) (nl : nat) (Q : option (Fp * Fp)) (m r s : Z) (x y : Fp) (ri : Z)
    (Tx Ty : Fp) (addrs : nat -> Z) (i : nat),
  division dv -> 0 < r < n -> 0 < s < n -> secp_point (Some (x, y)) -> zval x mod n = r -> (r * ri) mod n = 1 ->
  eff_T ri (Some (x, y)) = Some (Tx, Ty) -> Q = eadd (emul s (Some (Tx, Ty))) (eff_U ri m) ->
  ~ carry_lost s -> tail_ok ((s - 2 ^ 256) mod n) (Some (Tx, Ty)) -> ~ degenerate (emul s (Some (Tx, Ty))) (eff_U ri m) ->
  (i < 2 ^ nl)%nat -> addrs i = eth_address (zval (fst (enc Q))) (zval (snd (enc Q))) ->
  let U := enc (eff_U ri m) in
  let leaves := fun i => fp (addrs i) in
  exists w bits, length bits = nl /\ index_of bits = i /\
    addr_membership nl w (fp s) (node pos2 leaves nl 0) Tx Ty (fst U) (snd U)
      (map bit_of bits) (siblings pos2 leaves 0 bits) = true.
Proof. exact addr_complete. Qed.
Print Assumptions C46_addr_complete.

(** the hypotheses are met by the signature with nonce point the base point, s = 24 and
    message 5; with the completeness theorems this gives accepted assignments *)
Example C46_case : division (@fdiv Fp) /\ 0 < gx < n /\ 0 < 24 < n /\ secp_point base /\ zval (fp gx) mod n = gx /\
  (gx * ri) mod n = 1 /\ eff_T ri base = Some (Tx, Ty) /\ ~ carry_lost 24 /\
  tail_ok ((24 - 2 ^ 256) mod n) (Some (Tx, Ty)) /\ ~ degenerate (emul 24 (Some (Tx, Ty))) (eff_U ri 5).
Proof.
  exact (conj (fdiv_division Fp) (conj (conj eq_refl eq_refl) (conj (conj eq_refl eq_refl) (conj secp_base
    (conj gx_mod (conj ri_ok (conj T_eff (conj no_loss_24 (conj tail_24 last_24))))))))).
Qed.

(** uniqueness of the address: the bits name the coordinate or the coordinate plus p, ... *)
Theorem C46_decomposition : forall (x : Fp) (X : Z), 0 <= X < 2 ^ 256 -> fp X = x ->
  X = zval x \/ X = zval x + p /\ zval x < 2 ^ 256 - p.
Proof. exact decomposition. Qed.
Print Assumptions C46_decomposition.
(** ... and for a coordinate below 2^256 - p both choices pass *)
Theorem C46_unique_refuted : forall (e : mul_adv * ac_adv Fp) (s Tx Ty Ux Uy qx qy : Fp),
  eff_ecdsa e s Tx Ty Ux Uy = Some (qx, qy) -> zval qx < 2 ^ 256 - p ->
  exists w1 w2, ad_ecdsa w1 = e /\ ad_ecdsa w2 = e /\
    eff_ecdsa_to_addr w1 s Tx Ty Ux Uy = Some (fp (eth_address (zval qx) (zval qy))) /\
    eff_ecdsa_to_addr w2 s Tx Ty Ux Uy = Some (fp (eth_address (zval qx + p) (zval qy))).
Proof. exact addr_ambiguous. Qed.
Print Assumptions C46_unique_refuted.
(** a curve point with x coordinate 1 that the gadget produces; the two addresses differ *)
Example C46_unique_case : on_secp (Some (fp 1, fp y1)) /\
  (exists e, eff_ecdsa e (fp 24) Tx Ty (fp ux1) (fp uy1) = Some (fp 1, fp y1)) /\ zval (fp 1) < 2 ^ 256 - p /\
  eth_address 1 y1 <> eth_address (1 + p) y1.
Proof. exact (conj Q1_on (conj key1 (conj eq_refl key1_two))). Qed.
