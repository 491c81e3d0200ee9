(** Model of how instances and proofs are written and read: bincode 1.3 with its default
    options (the functions [bincode::serialize] and [bincode::deserialize]), a dependency
    modelled from its published source, driven by the derived serde implementations of
    Spartan-secq and the hand-written one of [Scalar].

    bincode writes an integer as 8 little-endian bytes, a vector as its length and its
    elements, a tuple, an array or a struct as its parts; [deserialize] allows trailing
    bytes.  [word] is the number of values of a [usize]: 2^32 in WebAssembly, 2^64 in a
    native build.  A decoding error is [Err OtherErr]. *)
From Coq Require Import ZArith List Bool.
From Verif Require Import Base Primes Field Zq Limb Vec R1csModel CommitModel SigmaModel SumModel NizkModel ReadModel.
Import ListNotations.
Local Open Scope Z_scope.

Section Bin.
  Context {G : Mod Fp} {E : Enc G}.
  Variable word : Z.
  (** sec1: the bytes of an encoded point, and [EncodedPoint::from_bytes] *)
  Variables (point_bytes : E -> list Z) (point_parse : list Z -> option E).

  (** [usize]: bincode and serde refuse a number that is not one *)
  Definition ser_usize (k : nat) : list Z := le_bytes 8 (Z.of_nat k).
  Definition de_usize (s : list Z) : res (nat * list Z) :=
    do (k, s) <- read_u64 s; if k <? word then Ok (Z.to_nat k, s) else Err OtherErr.
  Definition ser_vec {A} (f : A -> list Z) (l : list A) : list Z := ser_usize (length l) ++ flat_map f l.
  Definition de_vec {A} (f : list Z -> res (A * list Z)) (s : list Z) : res (list A * list Z) :=
    do (k, s) <- de_usize s; read_many f k s.
  Definition de_u8 (s : list Z) : res (Z * list Z) :=
    match s with [] => Err OtherErr | x :: s => Ok (x, s) end.

  (** Spartan-secq/src/scalar/scalar.rs:206-217: a sequence of 32 bytes *)
  Definition ser_scalar (x : Fp) : list Z := ser_vec (fun b => [b]) (le_bytes 32 (zval x)).
  (** scalar.rs:219-254: the visitor takes 32 elements of the announced sequence, unwrapping
      each of them, and does not look for more; [from_raw] reduces modulo p
      (C03_raw proves this of the limb code) *)
  Definition de_scalar (s : list Z) : res (Fp * list Z) :=
    do (k, s) <- de_usize s;
    assert (Nat.leb 32 k);
    assert (Nat.leb 32 (length s));
    Ok (fp (of_le (firstn 32 s)), skipn 32 s).
  (** sec1 (serde through serdect): a vector of bytes, then [from_bytes] *)
  Definition ser_point (P : E) : list Z := ser_vec (fun b => [b]) (point_bytes P).
  Definition de_point (s : list Z) : res (E * list Z) :=
    do (b, s) <- de_vec de_u8 s;
    match point_parse b with Some P => Ok (P, s) | None => Err OtherErr end.

  (** nizk/mod.rs:16-21 *)
  Definition ser_kp (x : kproof E) : list Z := ser_point (kp_alpha x) ++ ser_scalar (kp_z1 x) ++ ser_scalar (kp_z2 x).
  Definition de_kp (s : list Z) : res (kproof E * list Z) :=
    do (a, s) <- de_point s; do (z1, s) <- de_scalar s; do (z2, s) <- de_scalar s; Ok (MkKP a z1 z2, s).
  (** nizk/mod.rs:78-82 *)
  Definition ser_ep (x : eproof E) : list Z := ser_point (ep_alpha x) ++ ser_scalar (ep_z x).
  Definition de_ep (s : list Z) : res (eproof E * list Z) :=
    do (a, s) <- de_point s; do (z, s) <- de_scalar s; Ok (MkEP a z, s).
  (** nizk/mod.rs:147-153 *)
  Definition ser_pp (x : pproof E) : list Z :=
    let '(z1, z2, z3, z4, z5) := pp_z x in
    ser_point (pp_alpha x) ++ ser_point (pp_beta x) ++ ser_point (pp_delta x) ++
    ser_scalar z1 ++ ser_scalar z2 ++ ser_scalar z3 ++ ser_scalar z4 ++ ser_scalar z5.
  Definition de_pp (s : list Z) : res (pproof E * list Z) :=
    do (a, s) <- de_point s; do (b, s) <- de_point s; do (d, s) <- de_point s;
    do (z1, s) <- de_scalar s; do (z2, s) <- de_scalar s; do (z3, s) <- de_scalar s; do (z4, s) <- de_scalar s; do (z5, s) <- de_scalar s;
    Ok (MkPP a b d (z1, z2, z3, z4, z5), s).
  (** nizk/mod.rs:293-300 *)
  Definition ser_dp (x : dproof E) : list Z :=
    ser_point (dp_delta x) ++ ser_point (dp_beta x) ++ ser_vec ser_scalar (dp_z x) ++ ser_scalar (dp_zdelta x) ++ ser_scalar (dp_zbeta x).
  Definition de_dp (s : list Z) : res (dproof E * list Z) :=
    do (d, s) <- de_point s; do (b, s) <- de_point s; do (z, s) <- de_vec de_scalar s; do (zd, s) <- de_scalar s; do (zb, s) <- de_scalar s;
    Ok (MkDP d b z zd zb, s).
  (** nizk/bullet.rs:16-20 and nizk/mod.rs:421-428; [PolyEvalProof] (dense_mlpoly.rs:300-303)
      has this as its only field *)
  Definition ser_lp (x : lproof E) : list Z :=
    ser_vec ser_point (bp_L (lp_bullet x)) ++ ser_vec ser_point (bp_R (lp_bullet x)) ++
    ser_point (lp_delta x) ++ ser_point (lp_beta x) ++ ser_scalar (lp_z1 x) ++ ser_scalar (lp_z2 x).
  Definition de_lp (s : list Z) : res (lproof E * list Z) :=
    do (l, s) <- de_vec de_point s; do (r, s) <- de_vec de_point s;
    do (d, s) <- de_point s; do (b, s) <- de_point s; do (z1, s) <- de_scalar s; do (z2, s) <- de_scalar s;
    Ok (MkLP (MkBP l r) d b z1 z2, s).
  (** sumcheck.rs:65-70 *)
  Definition ser_zk (x : zkproof E) : list Z :=
    ser_vec ser_point (zk_polys x) ++ ser_vec ser_point (zk_evals x) ++ ser_vec ser_dp (zk_proofs x).
  Definition de_zk (s : list Z) : res (zkproof E * list Z) :=
    do (a, s) <- de_vec de_point s; do (b, s) <- de_vec de_point s; do (c, s) <- de_vec de_dp s; Ok (MkZK a b c, s).
  (** r1csproof.rs:22-38; [PolyCommitment] (dense_mlpoly.rs:42-45) is a vector of points *)
  Definition ser_r1csproof (x : r1csproof E) : list Z :=
    let '(c1, c2, c3, c4) := rp_claims x in
    ser_vec ser_point (rp_comm_vars x) ++ ser_zk (rp_sc1 x) ++
    ser_point c1 ++ ser_point c2 ++ ser_point c3 ++ ser_point c4 ++
    ser_kp (rp_pok x) ++ ser_pp (rp_prod x) ++ ser_ep (rp_eq1 x) ++ ser_zk (rp_sc2 x) ++
    ser_point (rp_comm_ry x) ++ ser_lp (rp_eval x) ++ ser_ep (rp_eq2 x).
  Definition de_r1csproof (s : list Z) : res (r1csproof E * list Z) :=
    do (cv, s) <- de_vec de_point s; do (sc1, s) <- de_zk s;
    do (c1, s) <- de_point s; do (c2, s) <- de_point s; do (c3, s) <- de_point s; do (c4, s) <- de_point s;
    do (k, s) <- de_kp s; do (q, s) <- de_pp s; do (e1, s) <- de_ep s; do (sc2, s) <- de_zk s;
    do (ry, s) <- de_point s; do (ev, s) <- de_lp s; do (e2, s) <- de_ep s;
    Ok (MkRP cv sc1 (c1, c2, c3, c4) k q e1 sc2 ry ev e2, s).
  (** lib.rs:490-494 *)
  Definition ser_nizk (x : nizk E) : list Z :=
    ser_r1csproof (nz_proof x) ++ ser_vec ser_scalar (nz_rx x) ++ ser_vec ser_scalar (nz_ry x).
  Definition de_nizk (s : list Z) : res (nizk E * list Z) :=
    do (x, s) <- de_r1csproof s; do (rx, s) <- de_vec de_scalar s; do (ry, s) <- de_vec de_scalar s; Ok (MkNizk x rx ry, s).

  (** sparse_mlpoly.rs:19-24 and 32-37 *)
  Definition ser_entry (x : entry Fp) : list Z := ser_usize (erow x) ++ ser_usize (ecol x) ++ ser_scalar (eval x).
  Definition de_entry (s : list Z) : res (entry Fp * list Z) :=
    do (r, s) <- de_usize s; do (c, s) <- de_usize s; do (v, s) <- de_scalar s; Ok (MkEntry r c v, s).
  Definition ser_sparse (x : sparse Fp) : list Z := ser_usize (snx x) ++ ser_usize (sny x) ++ ser_vec ser_entry (sM x).
  Definition de_sparse (s : list Z) : res (sparse Fp * list Z) :=
    do (a, s) <- de_usize s; do (b, s) <- de_usize s; do (m, s) <- de_vec de_entry s; Ok (MkSparse a b m, s).
  (** r1csinstance.rs:18-26 *)
  Definition ser_r1cs (x : r1cs Fp) : list Z :=
    ser_usize (rc_cons x) ++ ser_usize (rc_vars x) ++ ser_usize (rc_inputs x) ++
    ser_sparse (rc_A x) ++ ser_sparse (rc_B x) ++ ser_sparse (rc_C x).
  Definition de_r1cs (s : list Z) : res (r1cs Fp * list Z) :=
    do (c, s) <- de_usize s; do (v, s) <- de_usize s; do (i, s) <- de_usize s;
    do (A, s) <- de_sparse s; do (B, s) <- de_sparse s; do (C, s) <- de_sparse s; Ok (MkR1cs c v i A B C, s).
  (** lib.rs:113-119; the digest is a vector of bytes *)
  Definition ser_instance (x : instance Fp (list nat)) : list Z :=
    ser_r1cs (inst x) ++ ser_vec (fun b => [Z.of_nat b]) (idigest x).
  Definition de_instance (s : list Z) : res (instance Fp (list nat) * list Z) :=
    do (r, s) <- de_r1cs s; do (d, s) <- de_vec de_u8 s; Ok (MkInstance r (map Z.to_nat d), s).

  (** [bincode::deserialize(..)]; a caller unwraps the result *)
  Definition dec_nizk (b : list Z) : res (nizk E) := do (x, _) <- de_nizk b; Ok x.
  Definition dec_instance (b : list Z) : res (instance Fp (list nat)) := do (x, _) <- de_instance b; Ok x.
End Bin.
