(** Properties C42-C44: Poseidon and the Merkle inclusion circuit.  [merkle H d leaf
    path sibs] is the output of MerkleTreeInclusionProof(d) with hash H, [None] when a
    path index is not a bit.  [pos2] is the two-to-one Poseidon hash of PosSpec.v with the
    constants of the repository, 4 + 4 full and 56 partial rounds. *)
From Coq Require Import ZArith List Bool Arith.
From Verif Require Import Base Primes Field Zq PosConst PosModel PosSpec PosApi.
Import ListNotations.
Local Open Scope nat_scope.

(** ** C42 *)
Theorem C42_output : forall (K : Fld) (H : K -> K -> K) (d : nat) (leaf : K) (path sibs : list K) (o : K),
  merkle H d leaf path sibs = Some o <->
  exists bits, path = map bit_of bits /\ length bits = d /\ length sibs = d /\ o = path_value H leaf bits sibs.
Proof. exact (@PosProofs.merkle_iff). Qed.
Print Assumptions C42_output.

(** every leaf of the perfect tree of depth d has an accepted path *)
Theorem C42_complete : forall (K : Fld) (H : K -> K -> K) (leaves : nat -> K) (d i : nat), i < 2 ^ d ->
  exists bits, length bits = d /\ index_of bits = i /\
    merkle H d (leaves i) (map bit_of bits) (siblings H leaves 0 bits) = Some (node H leaves d 0).
Proof. exact (@merkle_every_leaf). Qed.
Print Assumptions C42_complete.
Example C42_complete_case : 5 < 2 ^ 3. Proof. apply Nat.ltb_lt. reflexivity. Qed.

(** an accepted path proves the leaf at its index, or hashes a value that collides with
    the corresponding hash in the tree *)
Theorem C42_sound : forall (K : Fld) (H : K -> K -> K) (leaves : nat -> K) (d : nat) (leaf : K) (path sibs : list K),
  merkle H d leaf path sibs = Some (node H leaves d 0) ->
  exists bits, path = map bit_of bits /\ index_of bits < 2 ^ d /\
    (leaf = leaves (index_of bits) \/
     collide H (path_inputs H leaf bits sibs) (path_inputs H (leaves (index_of bits)) bits (siblings H leaves 0 bits))).
Proof. exact (@merkle_sound). Qed.
Print Assumptions C42_sound.
Theorem C42_unique : forall (K : Fld) (H : K -> K -> K) (d : nat) (leaf leaf' : K) (path sibs sibs' : list K) (root : K),
  merkle H d leaf path sibs = Some root -> merkle H d leaf' path sibs' = Some root ->
  exists bits, path = map bit_of bits /\
    (leaf = leaf' \/ collide H (path_inputs H leaf bits sibs) (path_inputs H leaf' bits sibs')).
Proof. exact (@merkle_unique). Qed.
Print Assumptions C42_unique.
(** a tree of depth 2 whose leaf number 2 has an accepted path; with this non-injective H the
    second alternative of the theorems occurs too *)
Example C42_sound_case :
  let H := fun a b : Fp => fadd (fmul a a) b in
  let t := node H (fun i => fp (Z.of_nat i)) 2 0 in
  merkle H 2 (fp 2) [fp 0; fp 1] [fp 3; fp 1] = Some t /\ merkle H 2 (fp 1) [fp 0; fp 1] [fp 6; fp 1] = Some t.
Proof. split; vm_compute; reflexivity. Qed.

(** ** C43 *)
Theorem C43_rust : forall x y : Fp, k256_hash x y = Ok (pos2 x y).
Proof. exact k256_hash_ok. Qed.
Print Assumptions C43_rust.
Theorem C43_circom : forall x y : Fp, cc_poseidon x y = pos2 x y.
Proof. exact cc_poseidon_ok. Qed.
Print Assumptions C43_circom.
Theorem C43_constants : rs_keys = cc_keys /\ rs_mds = cc_mds /\ length rs_keys = 192.
Proof. exact consts_same. Qed.
Print Assumptions C43_constants.
(** the permutation under the hash is one *)
Theorem C43_bijective : exists inv : vec3 Fp -> vec3 Fp,
  forall v, inv (poseidon_perm posC posM 4 56 v) = v /\ poseidon_perm posC posM 4 56 (inv v) = v.
Proof. exact poseidon_bijective. Qed.
Print Assumptions C43_bijective.

(** ** C44 *)
Theorem C44_first : forall (s : pstate Fp) (x y : Fp), ps_pos s = 0 ->
  exists s', ps_pos s' = 192 /\ pos_hash k256_consts s x y = Ok (pos2 x y, s').
Proof. exact k256_first. Qed.
Print Assumptions C44_first.
(** the second call on one object panics, whatever its arguments *)
Theorem C44_reuse_refuted : forall (s s' : pstate Fp) (x y h : Fp), ps_pos s = 0 ->
  pos_hash k256_consts s x y = Ok (h, s') -> forall x' y', pos_hash k256_consts s' x' y' = Panic.
Proof. exact k256_second. Qed.
Print Assumptions C44_reuse_refuted.
Example C44_case : ps_pos (@pos_new Fp) = 0 /\ exists h s', pos_hash k256_consts pos_new (fp 1) (fp 2) = Ok (h, s').
Proof.
  split; [reflexivity|]. destruct (k256_first pos_new (fp 1) (fp 2) eq_refl) as (s' & _ & E). exists (pos2 (fp 1) (fp 2)), s'. exact E.
Qed.
