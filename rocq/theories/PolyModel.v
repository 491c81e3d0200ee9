(** Model of packages/Spartan-secq/src/unipoly.rs and the polynomial part of
    packages/Spartan-secq/src/dense_mlpoly.rs, over any field [K] (the scalar
    type; C01-C05 show that the limb code implements the field Z/p). *)
From Coq Require Import List Arith Lia Bool.
From Verif Require Import Base ListAux Field Vec MathModel.
Import ListNotations.

Section Poly.
  Variable K : Fld.
  Local Open Scope fld_scope.

  (** [x.invert().unwrap()]: panics on zero (scalar.rs:607-626) *)
  Definition inv_unwrap (x : K) : res K := if feqb x 0 then Panic else Ok (finv x).
  (** [usize::to_scalar], [Scalar::from(u64)]: scalar/mod.rs:14-44 *)
  Fixpoint of_nat (k : nat) : K := match k with O => 0 | S k' => 1 + of_nat k' end.

  (** * unipoly.rs *)
  (** UniPoly: the coefficient list, constant term first (unipoly.rs:8-13).
      from_evals: unipoly.rs:23-54 *)
  Definition from_evals (evals : list K) : res (list K) :=
    match evals with
    | [e0; e1; e2] =>
        do two_inv <- inv_unwrap (of_nat 2);
        let c := e0 in
        let a := two_inv * (e2 - e1 - e1 + c) in
        let b := e1 - c - a in
        Ok [c; b; a]
    | [e0; e1; e2; e3] =>
        do two_inv <- inv_unwrap (of_nat 2);
        do six_inv <- inv_unwrap (of_nat 6);
        let d := e0 in
        let a := six_inv * (e3 - e2 - e2 - e2 + e1 + e1 + e1 - e0) in
        let b := two_inv * (e0 + e0 - e1 - e1 - e1 - e1 - e1 + e2 + e2 + e2 + e2 - e3) in
        let c := e1 - d - a - b in
        Ok [d; c; b; a]
    | _ => Panic
    end.
  (** unipoly.rs:56-58; [len - 1] underflows (panics) on the empty list *)
  Definition degree (poly : list K) : res nat :=
    match poly with [] => Panic | _ :: t => Ok (length t) end.
  (** unipoly.rs:64-66 *)
  Definition eval_at_zero (poly : list K) : res K := idx poly 0.
  (** unipoly.rs:68-70 *)
  Definition eval_at_one (poly : list K) : K := fsum poly.
  (** unipoly.rs:72-80: running power of [r] *)
  Definition uni_evaluate (poly : list K) (r : K) : res K :=
    match poly with
    | [] => Panic
    | c :: t => Ok (fst (fold_left (fun '(e, pw) a => (e + pw * a, pw * r)) t (c, r)))
    end.
  (** unipoly.rs:82-88: slices [..1] and [2..] panic on shorter vectors *)
  Definition compress (poly : list K) : res (list K) :=
    match poly with
    | c :: _ :: t => Ok (c :: t)
    | _ => Panic
    end.
  (** unipoly.rs:98-109 *)
  Definition decompress (comp : list K) (hint : K) : res (list K) :=
    match comp with
    | [] => Panic
    | c :: t => let linear_term := fold_left fsub t (hint - c - c) in
                Ok (c :: linear_term :: t)
    end.

  (** * dense_mlpoly.rs: EqPolynomial *)
  (** dense_mlpoly.rs:61-66 *)
  Definition eq_evaluate (r rx : list K) : res K :=
    assert (Nat.eqb (length r) (length rx));
    Ok (fprod (map2 (fun a b => a * b + (1 - a) * (1 - b)) r rx)).
  (** dense_mlpoly.rs:68-84, as the code computes it: a table of ones, doubled in
      place [ell] times, indices descending.  Index errors panic. *)
  Definition evals_inner (rj : K) (t : res (list K)) (i : nat) : res (list K) :=
    do t <- t;
    do scalar <- idx t (i / 2)%nat;
    assert (Nat.ltb i (length t) && Nat.leb 1 i);
    let t := upd t i (scalar * rj) in
    do ti <- idx t i;
    Ok (upd t (i - 1)%nat (scalar - ti)).
  Definition evals_indices (size : nat) : list nat := (map (fun k => size - 1 - 2 * k) (seq 0 (size / 2)))%nat.
  Definition evals_outer (st : res (list K) * nat) (rj : K) : res (list K) * nat :=
    let size := (snd st * 2)%nat in
    (fold_left (evals_inner rj) (evals_indices size) (fst st), size).
  Definition eq_evals_imp (r : list K) : res (list K) :=
    fst (fold_left evals_outer r (Ok (repeat 1 (pow2 (length r))), 1%nat)).
  (** The same table without the in-place array: every entry [e] of the prior
      iteration becomes [e - e*r_j; e*r_j].  Proved equal in PolyImp.v
      ([eq_evals_imp_ok]); the rest of the model uses this form. *)
  Definition eq_double (t : list K) (rj : K) : list K := flat_map (fun e => [e - e * rj; e * rj]) t.
  Definition eq_evals (r : list K) : list K := fold_left eq_double r [1].
  (** dense_mlpoly.rs:86-88 *)
  Definition compute_factored_lens (ell : nat) : nat * nat := (ell / 2, ell - ell / 2)%nat.
  (** dense_mlpoly.rs:90-98 *)
  Definition compute_factored_evals (r : list K) : list K * list K :=
    let '(left_num_vars, _) := compute_factored_lens (length r) in
    (eq_evals (firstn left_num_vars r), eq_evals (skipn left_num_vars r)).

  (** * IdentityPolynomial: dense_mlpoly.rs:101-117 *)
  Definition identity_evaluate (size_point : nat) (r : list K) : res K :=
    assert (Nat.eqb (length r) size_point);
    Ok (fsum (map2 (fun i x => of_nat (pow2 (length r - i - 1)%nat) * x) (seq 0 (length r)) r)).

  (** * DensePolynomial: dense_mlpoly.rs:18-23.  [dlen] may be smaller than the
      table after variables have been bound (the tail stays in the vector). *)
  Record dense : Type := MkDense { dnum_vars : nat; dlen : nat; dZ : list K }.
  (** dense_mlpoly.rs:120-126 *)
  Definition dense_new (Z : list K) : res dense :=
    do l <- log_2 (length Z); Ok (MkDense l (length Z) Z).
  (** dense_mlpoly.rs:136-138 *)
  Definition dense_clone (d : dense) : res dense :=
    assert (Nat.leb (dlen d) (length (dZ d))); dense_new (firstn (dlen d) (dZ d)).
  (** dense_mlpoly.rs:140-146; the slice [idx..2*idx] panics beyond the table *)
  Definition dense_split (d : dense) (i : nat) : res (dense * dense) :=
    assert (Nat.ltb i (dlen d));
    assert (Nat.leb (2 * i)%nat (length (dZ d)));
    do a <- dense_new (firstn i (dZ d));
    do b <- dense_new (firstn i (skipn i (dZ d)));
    Ok (a, b).
  (** dense_mlpoly.rs:206-213: row-vector times matrix; indices checked once *)
  Definition dense_bound (d : dense) (L : list K) : res (list K) :=
    let '(ln, rn) := compute_factored_lens (dnum_vars d) in
    let L_size := pow2 ln in let R_size := pow2 rn in
    assert (Nat.leb L_size (length L));
    assert (Nat.leb (L_size * R_size)%nat (length (dZ d)));
    Ok (map (fun i => fsum (map (fun j => nth j L 0 * nth (j * R_size + i)%nat (dZ d) 0) (seq 0 L_size))) (seq 0 R_size)).
  (** dense_mlpoly.rs:215-222 *)
  Definition bind_top_step (n : nat) (r : K) (Z : res (list K)) (i : nat) : res (list K) :=
    do Z <- Z;
    do a <- idx Z i; do b <- idx Z (i + n)%nat;
    Ok (upd Z i (a + r * (b - a))).
  Definition bound_poly_var_top (d : dense) (r : K) : res dense :=
    let n := (dlen d / 2)%nat in
    do Z <- fold_left (bind_top_step n r) (seq 0 n) (Ok (dZ d));
    assert (Nat.leb 1 (dnum_vars d));
    Ok (MkDense (dnum_vars d - 1)%nat n Z).
  (** dense_mlpoly.rs:224-231 *)
  Definition bind_bot_step (r : K) (Z : res (list K)) (i : nat) : res (list K) :=
    do Z <- Z;
    do a <- idx Z (2 * i)%nat; do b <- idx Z (2 * i + 1)%nat;
    assert (Nat.ltb i (length Z));
    Ok (upd Z i (a + r * (b - a))).
  Definition bound_poly_var_bot (d : dense) (r : K) : res dense :=
    let n := (dlen d / 2)%nat in
    do Z <- fold_left (bind_bot_step r) (seq 0 n) (Ok (dZ d));
    assert (Nat.leb 1 (dnum_vars d));
    Ok (MkDense (dnum_vars d - 1)%nat n Z).
  (** nizk/mod.rs:435-438 *)
  Definition compute_dotproduct (a b : list K) : res K :=
    assert (Nat.eqb (length a) (length b)); Ok (dot a b).
  (** dense_mlpoly.rs:234-240 *)
  Definition dense_evaluate (d : dense) (r : list K) : res K :=
    assert (Nat.eqb (length r) (dnum_vars d));
    let chis := eq_evals r in
    assert (Nat.eqb (length chis) (length (dZ d)));
    compute_dotproduct (dZ d) chis.
  (** dense_mlpoly.rs:246-255 *)
  Definition dense_extend (d o : dense) : res dense :=
    assert (Nat.eqb (length (dZ d)) (dlen d));
    assert (Nat.eqb (length (dZ o)) (dlen d));
    let Z := dZ d ++ dZ o in
    assert (Nat.eqb (length Z) (dlen d * 2)%nat);
    Ok (MkDense (dnum_vars d + 1)%nat (dlen d * 2)%nat Z).
  (** dense_mlpoly.rs:257-270 *)
  Definition dense_merge (polys : list dense) : res dense :=
    let Z := concat (map dZ polys) in
    dense_new (Z ++ repeat 0 (next_pow2 (length Z) - length Z)).
  (** dense_mlpoly.rs:272-278 *)
  Definition dense_from_usize (Z : list nat) : res dense := dense_new (map of_nat Z).
  (** dense_mlpoly.rs:281-288 *)
  Definition dense_index (d : dense) (i : nat) : res K := idx (dZ d) i.
End Poly.
Arguments inv_unwrap {K} x.
Arguments of_nat {K} k.
Arguments from_evals {K} evals.
Arguments degree {K} poly.
Arguments eval_at_zero {K} poly.
Arguments eval_at_one {K} poly.
Arguments uni_evaluate {K} poly r.
Arguments compress {K} poly.
Arguments decompress {K} comp hint.
Arguments eq_evaluate {K} r rx.
Arguments eq_evals_imp {K} r.
Arguments eq_double {K} t rj.
Arguments eq_evals {K} r.
Arguments compute_factored_evals {K} r.
Arguments identity_evaluate {K} size_point r.
Arguments MkDense {K} _ _ _.
Arguments dnum_vars {K} _.
Arguments dlen {K} _.
Arguments dZ {K} _.
Arguments dense_new {K} Z.
Arguments dense_clone {K} d.
Arguments dense_split {K} d i.
Arguments dense_bound {K} d L.
Arguments bind_top_step {K} n r Z i.
Arguments bound_poly_var_top {K} d r.
Arguments bind_bot_step {K} r Z i.
Arguments bound_poly_var_bot {K} d r.
Arguments compute_dotproduct {K} a b.
Arguments dense_evaluate {K} d r.
Arguments dense_extend {K} d o.
Arguments dense_merge {K} polys.
Arguments dense_from_usize {K} Z.
Arguments dense_index {K} d i.
