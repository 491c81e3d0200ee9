(** Model of the Poseidon hash, in Rust (packages/poseidon/src) and in circom
    (packages/circuits/poseidon), and of the Merkle tree and public-key membership
    templates of packages/circuits/eff_ecdsa_membership. *)
From Coq Require Import ZArith List Bool Arith.
From Verif Require Import Base Primes Field Zq CircModel PosConst.
Import ListNotations.
Local Open Scope fld_scope.

Section Rust.
  Context {K : Fld}.

  (** packages/poseidon/src/lib.rs:6-27 (PoseidonConstants) *)
  Record pconsts := MkPC { pc_keys : list K; pc_mds : list (list K); pc_full : nat; pc_partial : nat }.
  (** packages/poseidon/src/lib.rs:29-33 (Poseidon).  The constants are never
      written after construction and are passed separately. *)
  Record pstate := MkPS { ps_state : list K; ps_pos : nat }.

  (** packages/poseidon/src/lib.rs:36-43 (Poseidon::new) *)
  Definition pos_new : pstate := MkPS [0; 0; 0] 0.

  (** ff's Field::pow_vartime on four 64-bit limbs: square and multiply from the
      most significant bit.  Simplified: the exponent is given as an integer. *)
  Definition pow_vartime (x : K) (e : Z) : K :=
    fold_left (fun r i => let r := r * r in if Z.testbit e (Z.of_nat i) then r * x else r) (rev (seq 0 256)) 1.

  (** F::from(3) *)
  Definition from3 : K := 1 + 1 + 1.

  (** packages/poseidon/src/lib.rs:72-77 (add_constants) *)
  Definition add_constants (c : pconsts) (s : pstate) : res pstate :=
    do st <- mapM (fun ix => do k <- idx (pc_keys c) (fst ix + ps_pos s); Ok (snd ix + k))
                  (combine (seq 0 (length (ps_state s))) (ps_state s));
    Ok (MkPS st (ps_pos s)).

  (** packages/poseidon/src/lib.rs:84-87: one row times the state *)
  Fixpoint row_mul (row : list K) (j : nat) (st : list K) (tmp : K) : res K :=
    match st with
    | [] => Ok tmp
    | e :: t => do v <- idx row j; row_mul row (S j) t (tmp + v * e)
    end.
  (** packages/poseidon/src/lib.rs:83-89: the rows in order, writing result[i] *)
  Fixpoint rows_mul (rows : list (list K)) (i : nat) (st result : list K) : res (list K) :=
    match rows with
    | [] => Ok result
    | row :: t =>
        do tmp <- row_mul row 0 st 0;
        assert (i <? length result)%nat;
        rows_mul t (S i) st (upd result i tmp)
    end.
  (** packages/poseidon/src/lib.rs:80-92 (matrix_mul) *)
  Definition matrix_mul (c : pconsts) (s : pstate) : res pstate :=
    do r <- rows_mul (pc_mds c) 0 (ps_state s) [0; 0; 0];
    Ok (MkPS r (ps_pos s)).

  (** packages/poseidon/src/lib.rs:94-107 (full_round) *)
  Definition full_round (c : pconsts) (s : pstate) : res pstate :=
    do s1 <- add_constants c s;
    let s2 := MkPS (map (fun x => pow_vartime x 5) (ps_state s1)) (ps_pos s1) in
    do s3 <- matrix_mul c s2;
    Ok (MkPS (ps_state s3) (ps_pos s3 + length (ps_state s3))).

  (** packages/poseidon/src/lib.rs:109-119 (partial_round) *)
  Definition partial_round (c : pconsts) (s : pstate) : res pstate :=
    do s1 <- add_constants c s;
    do x <- idx (ps_state s1) 0;
    let s2 := MkPS (upd (ps_state s1) 0 (pow_vartime x 5)) (ps_pos s1) in
    do s3 <- matrix_mul c s2;
    Ok (MkPS (ps_state s3) (ps_pos s3 + length (ps_state s3))).

  (** for _ in 0..n { f } *)
  Fixpoint repeat_res (n : nat) (f : pstate -> res pstate) (s : pstate) : res pstate :=
    match n with O => Ok s | S n' => do s' <- f s; repeat_res n' f s' end.

  (** packages/poseidon/src/lib.rs:45-70 (hash); returns the digest and the object *)
  Definition pos_hash (c : pconsts) (s : pstate) (x y : K) : res (K * pstate) :=
    let s0 := MkPS [from3; x; y] (ps_pos s) in
    let half := Nat.div2 (pc_full c) in
    do s1 <- repeat_res half (full_round c) s0;
    do s2 <- repeat_res (pc_partial c) (partial_round c) s1;
    do s3 <- repeat_res half (full_round c) s2;
    do out <- idx (ps_state s3) 1;
    Ok (out, s3).
End Rust.
Arguments pconsts : clear implicits.
Arguments pstate : clear implicits.

(** packages/poseidon/src/poseidon_k256.rs:7-16; [FieldElement::from_str_vartime]
    of a decimal string is the number modulo p *)
Definition k256_consts : pconsts Fp := MkPC (map fp rs_keys) (map (map fp) rs_mds) rs_full rs_partial.
(** packages/poseidon/src/poseidon_k256.rs:6-22 (hash): a new object for every call *)
Definition k256_hash (x y : Fp) : res Fp := do r <- pos_hash k256_consts pos_new x y; Ok (fst r).

Section Circom.
  Context {K : Fld}.

  (** packages/circuits/poseidon/poseidon.circom:5-14 (SBox) *)
  Definition cc_sbox (x : K) : K := let d := x * x in let q := d * d in q * x.
  (** packages/circuits/poseidon/poseidon.circom:16-29 (MatrixMul) *)
  Definition cc_matrix_mul (mds : list (list K)) (st : list K) : list K :=
    map (fun i => fold_left (fun tmp j => tmp + nth j st 0 * nth j (nth i mds []) 0) (seq 0 3) 0) (seq 0 3).
  (** packages/circuits/poseidon/poseidon.circom:31-40 (AddRoundConst) *)
  Definition cc_add_const (keys : list K) (pos : nat) (st : list K) : list K :=
    map (fun i => nth i st 0 + nth (pos + i) keys 0) (seq 0 3).
  (** packages/circuits/poseidon/poseidon.circom:42-66 (FullRound) *)
  Definition cc_full (keys : list K) (mds : list (list K)) (pos : nat) (st : list K) : list K :=
    cc_matrix_mul mds (map cc_sbox (cc_add_const keys pos st)).
  (** packages/circuits/poseidon/poseidon.circom:68-93 (PartialRound) *)
  Definition cc_partial (keys : list K) (mds : list (list K)) (pos : nat) (st : list K) : list K :=
    let a := cc_add_const keys pos st in
    cc_matrix_mul mds (map (fun i => if (i =? 0)%nat then cc_sbox (nth 0 a 0) else nth i a 0) (seq 0 3)).
  (** n rounds; the state carries stateIndex *)
  Fixpoint cc_rounds (f : nat -> list K -> list K) (n : nat) (s : nat * list K) : nat * list K :=
    match n with O => s | S n' => cc_rounds f n' (S (fst s), f (fst s * 3)%nat (snd s)) end.
  (** packages/circuits/poseidon/poseidon.circom:95-158 (Poseidon).  All signals are
      assigned with [<==]: there is no advice and no way to fail. *)
  Definition cc_hash (keys : list K) (mds : list (list K)) (x y : K) : K :=
    let s0 := (0%nat, [cst3; x; y]) in
    let s1 := cc_rounds (cc_full keys mds) 4 s0 in
    let s2 := cc_rounds (cc_partial keys mds) 56 s1 in
    let s3 := cc_rounds (cc_full keys mds) 4 s2 in
    nth 1 (snd s3) 0.
End Circom.

(** Poseidon() with the constants of poseidon_constants.circom *)
Definition cc_poseidon : Fp -> Fp -> Fp := cc_hash (map fp cc_keys) (map (map fp) cc_mds).

Section Merkle.
  Context {K : Fld}.
  (** the Poseidon() template *)
  Variable H : K -> K -> K.

  (** packages/circuits/eff_ecdsa_membership/tree.circom:27-45: the levels, from the
      leaf up.  [MultiMux1(2)] has two outputs selected by pathIndices[i]. *)
  Fixpoint merkle_levels (h : K) (levels : list (K * K)) : option K :=
    match levels with
    | [] => Some h
    | (b, sib) :: t =>
        constrain (b * (1 - b)) === 0;
        let o0 := mux1 h sib b in
        let o1 := mux1 sib h b in
        merkle_levels (H o0 o1) t
    end.
  (** packages/circuits/eff_ecdsa_membership/tree.circom:14-48
      (MerkleTreeInclusionProof(nLevels)).  The two signal arrays have nLevels
      elements. *)
  Definition merkle (nLevels : nat) (leaf : K) (path sibs : list K) : option K :=
    if (length path =? nLevels)%nat && (length sibs =? nLevels)%nat
    then merkle_levels leaf (combine path sibs) else None.
End Merkle.

(** packages/circuits/eff_ecdsa_membership/pubkey_membership.circom:17-46
    (PubKeyMembership(nLevels)); [true] when every constraint holds.  The advice is
    that of EfficientECDSA. *)
Definition pubkey_membership (nLevels : nat) (w : mul_adv * ac_adv Fp)
    (s root Tx Ty Ux Uy : Fp) (path sibs : list Fp) : bool :=
  match eff_ecdsa w s Tx Ty Ux Uy with
  | None => false
  | Some (qx, qy) =>
      let leaf := cc_poseidon qx qy in
      match merkle cc_poseidon nLevels leaf path sibs with
      | None => false
      | Some r => feqb root r
      end
  end.
