(** Properties C10-C13 and C53: univariate and multilinear polynomials, size
    helpers.  [K] is any field (the scalar field of the crate is the instance
    [Fp]); [peval], [chi], [mle] are the mathematical notions of PolySpec.v. *)
From Coq Require Import List Arith ZArith Bool Lia.
From Verif Require Import Base Field Zq Vec MathModel PolyModel PolySpec PolyProofs PolyImp MathProofs PolyApi.
Import ListNotations.
Local Open Scope fld_scope.

Theorem C10_interpolate_quadratic : forall (K : Fld) (e0 e1 e2 : K), (of_nat 2 : K) <> 0 ->
  exists cs, from_evals [e0; e1; e2] = Ok cs /\ length cs = 3%nat /\
    (peval cs 0 = e0 /\ peval cs 1 = e1 /\ peval cs (of_nat 2) = e2) /\
    forall ds : list K, length ds = 3%nat -> peval ds 0 = e0 -> peval ds 1 = e1 -> peval ds (of_nat 2) = e2 -> ds = cs.
Proof. exact api_interp3. Qed.
Print Assumptions C10_interpolate_quadratic.

Theorem C10_interpolate_cubic : forall (K : Fld) (e0 e1 e2 e3 : K), (of_nat 2 : K) <> 0 -> (of_nat 3 : K) <> 0 ->
  exists cs, from_evals [e0; e1; e2; e3] = Ok cs /\ length cs = 4%nat /\
    (peval cs 0 = e0 /\ peval cs 1 = e1 /\ peval cs (of_nat 2) = e2 /\ peval cs (of_nat 3) = e3) /\
    forall ds : list K, length ds = 4%nat -> peval ds 0 = e0 -> peval ds 1 = e1 -> peval ds (of_nat 2) = e2 ->
      peval ds (of_nat 3) = e3 -> ds = cs.
Proof. exact api_interp4. Qed.
Print Assumptions C10_interpolate_cubic.

(** any other number of values panics *)
Theorem C10_interpolate_sizes : forall (K : Fld) (es : list K), length es <> 3%nat -> length es <> 4%nat -> from_evals es = Panic.
Proof. exact api_interp_bad. Qed.
Print Assumptions C10_interpolate_sizes.

Theorem C10_evaluate : forall (K : Fld) (cs : list K) (x : K), cs <> [] ->
  uni_evaluate cs x = Ok (peval cs x) /\
  eval_at_zero cs = Ok (peval cs 0) /\ eval_at_one cs = peval cs 1.
Proof. exact api_uni_eval. Qed.
Print Assumptions C10_evaluate.

Theorem C10_compress_decompress : forall (K : Fld) (cs : list K), (2 <= length cs)%nat ->
  (do comp <- compress cs; decompress comp (peval cs 0 + peval cs 1)) = Ok cs.
Proof. exact api_compress. Qed.
Print Assumptions C10_compress_decompress.

Theorem C10_decompress_sum : forall (K : Fld) (comp : list K) (hint : K), comp <> [] ->
  exists cs, decompress comp hint = Ok cs /\ length cs = S (length comp) /\
    peval cs 0 + peval cs 1 = hint /\ compress cs = Ok comp.
Proof. exact api_decompress. Qed.
Print Assumptions C10_decompress_sum.

Example C10_case : (of_nat 2 : Fp) <> 0 /\ (of_nat 3 : Fp) <> 0 /\
  from_evals [fp 1; fp 15; fp 61; fp 157] = Ok [fp 1; fp 4; fp 7; fp 3] /\
  uni_evaluate [fp 1; fp 4; fp 7; fp 3] (fp 4) = Ok (fp 321).
Proof. exact poly_case10. Qed.

Theorem C11_table : forall (K : Fld) (r : list K), exists t, eq_evals_imp r = Ok t /\ length t = (2 ^ length r)%nat /\
  forall i, (i < 2 ^ length r)%nat -> nth i t 0 = chi r i.
Proof. exact api_eq_table. Qed.
Print Assumptions C11_table.

Theorem C11_evaluate : forall (K : Fld) (r rx : list K), length r = length rx ->
  eq_evaluate r rx = Ok (fprod (map2 (fun a b => a * b + (1 - a) * (1 - b)) r rx)) /\
  eq_evaluate r rx = Ok (mle (eq_evals r) rx).
Proof. exact api_eq_eval. Qed.
Print Assumptions C11_evaluate.

Theorem C11_factored : forall (K : Fld) (r : list K),
  let '(L, R) := compute_factored_evals r in
  (length L * length R = 2 ^ length r)%nat /\
  forall i j, (i < length L)%nat -> (j < length R)%nat -> nth i L 0 * nth j R 0 = chi r (i * length R + j).
Proof. exact api_factored. Qed.
Print Assumptions C11_factored.

(** the identity polynomial is the multilinear extension of 0, 1, 2, ... *)
Theorem C11_identity : forall (K : Fld) (r : list K),
  identity_evaluate (length r) r = Ok (mle (map of_nat (seq 0 (2 ^ length r))) r).
Proof. exact api_identity. Qed.
Print Assumptions C11_identity.

Example C11_case :
  eq_evals_imp [fp 2; fp 3] = Ok [fp 2; fp (-3); fp (-4); fp 6] /\
  chi [fp 2; fp 3] 2 = fp (-4) /\ identity_evaluate 2 [fp 1; fp 0] = Ok (fp 2).
Proof. zqs. Qed.

(** [mle] is multilinear and interpolates the table: a check on the specification *)
Theorem C12_mle_meaning : forall (K : Fld) (Z : list K) (r : list K) (x : K),
  length Z = (2 ^ S (length r))%nat ->
  mle Z (x :: r) = (1 - x) * mle (firstn (2 ^ length r) Z) r + x * mle (skipn (2 ^ length r) Z) r /\
  mle Z [] = nth 0 Z 0.
Proof. exact api_mle_meaning. Qed.
Print Assumptions C12_mle_meaning.

Theorem C12_evaluate : forall (K : Fld) (Z r : list K), length Z = (2 ^ length r)%nat ->
  (do d <- dense_new Z; dense_evaluate d r) = Ok (mle Z r).
Proof. exact evaluate_ok. Qed.
Print Assumptions C12_evaluate.

Theorem C12_bind_top : forall (K : Fld) (d : dense K) (r : K) (rs : list K),
  dense_ok d -> dnum_vars d = S (length rs) ->
  exists d', bound_poly_var_top d r = Ok d' /\ dense_ok d' /\ dnum_vars d' = length rs /\
    mle (live d') rs = mle (live d) (r :: rs).
Proof. exact bind_top_mle. Qed.
Print Assumptions C12_bind_top.

Theorem C12_bind_bottom : forall (K : Fld) (d : dense K) (r : K) (rs : list K),
  dense_ok d -> dnum_vars d = S (length rs) ->
  exists d', bound_poly_var_bot d r = Ok d' /\ dense_ok d' /\ dnum_vars d' = length rs /\
    mle (live d') rs = mle (live d) (rs ++ [r]).
Proof. exact bind_bot_mle. Qed.
Print Assumptions C12_bind_bottom.

(** binding all variables, one after the other, leaves the value of [evaluate] *)
Theorem C12_bind_all : forall (K : Fld) (Z rs : list K), length Z = (2 ^ length rs)%nat ->
  exists v, (do d <- dense_new Z; dense_evaluate d rs) = Ok v /\
    (do d <- dense_new Z;
     do d <- fold_left (fun d r => do d <- d; bound_poly_var_top d r) rs (Ok d);
     dense_index d 0) = Ok v.
Proof. exact api_bind_all. Qed.
Print Assumptions C12_bind_all.

(** the matrix form used by the commitment: rows bound with the left table, then
    a dot product with the right table *)
Theorem C12_bound : forall (K : Fld) (Z r : list K), length Z = (2 ^ length r)%nat ->
  exists LZ, dense_bound (MkDense (length r) (2 ^ length r) Z) (fst (compute_factored_evals r)) = Ok LZ /\
    dot LZ (snd (compute_factored_evals r)) = mle Z r.
Proof. exact api_bound. Qed.
Print Assumptions C12_bound.

Example C12_case :
  (do d <- dense_new [fp 1; fp 2; fp 3; fp 5]; dense_evaluate d [fp 4; fp 7]) = Ok (fp 44) /\
  dense_ok (MkDense 2 4 [fp 1; fp 2; fp 3; fp 5]).
Proof. split; [vm_compute; reflexivity|split; cbn; lia]. Qed.

Theorem C13_merge : forall (K : Fld) (polys : list (dense K)) (c r : list K),
  polys <> [] -> length c = Nat.log2_up (length polys) ->
  (forall d, In d polys -> length (dZ d) = (2 ^ length r)%nat) ->
  exists d, dense_merge polys = Ok d /\
    dZ d = pad_pow2 (concat (map dZ polys)) /\
    dense_evaluate d (c ++ r) = Ok (mle (pad_pow2 (map (fun d => mle (dZ d) r) polys)) c).
Proof. exact api_merge. Qed.
Print Assumptions C13_merge.

Theorem C13_extend_split : forall (K : Fld) (a b : list K) k, length a = (2 ^ k)%nat -> length b = (2 ^ k)%nat ->
  exists da db d, dense_new a = Ok da /\ dense_new b = Ok db /\ dense_new (a ++ b) = Ok d /\
    dense_extend da db = Ok d /\ dense_split d (2 ^ k) = Ok (da, db).
Proof. exact api_extend_split. Qed.
Print Assumptions C13_extend_split.

Example C13_case : exists d,
  dense_merge [MkDense 1 2 [fp 1; fp 2]; MkDense 1 2 [fp 3; fp 4]; MkDense 1 2 [fp 5; fp 6]] = Ok d /\
  dZ d = [fp 1; fp 2; fp 3; fp 4; fp 5; fp 6; fp 0; fp 0].
Proof. eexists. split; reflexivity. Qed.

Local Open Scope Z_scope.
Theorem C53_log_2 : forall x, 0 < x < 2 ^ 64 ->
  exists e, log_2_word x = Ok e /\ 0 <= e <= 64 /\ x <= 2 ^ e /\ (x = 1 /\ e = 0 \/ 1 < x /\ 2 ^ (e - 1) < x).
Proof. exact log_2_word_ok. Qed.
Print Assumptions C53_log_2.

Theorem C53_log_2_pow2 : forall e, 0 <= e < 64 -> (do x <- pow2_word e; log_2_word x) = Ok e /\ pow2_word e = Ok (2 ^ e).
Proof. exact api_log_pow. Qed.
Print Assumptions C53_log_2_pow2.

Theorem C53_get_bits : forall x nb, (nb <= 64)%nat ->
  exists bs, get_bits_word x nb = Ok bs /\ length bs = nb /\ bits_val bs = x mod 2 ^ Z.of_nat nb.
Proof. exact get_bits_word_ok. Qed.
Print Assumptions C53_get_bits.

(** outside those ranges the helpers panic *)
Theorem C53_panics : log_2_word 0 = Panic /\ (forall e, 64 <= e < 2 ^ 32 -> pow2_word e = Panic) /\
  forall x nb, (64 < nb)%nat -> get_bits_word x nb = Panic.
Proof. exact (conj log_2_word_zero (conj pow2_word_panic get_bits_word_panic)). Qed.
Print Assumptions C53_panics.

(** the size arithmetic on [nat] used elsewhere in the model agrees with the words *)
Theorem C53_nat_model : forall x nb : nat, Z.of_nat x < 2 ^ 64 -> (nb <= 64)%nat ->
  log_2_word (Z.of_nat x) = match log_2 x with Ok e => Ok (Z.of_nat e) | Err e => Err e | Panic => Panic end /\
  get_bits_word (Z.of_nat x) nb = Ok (get_bits x nb) /\
  (Z.of_nat (2 ^ nb) < 2 ^ 64 -> pow2_word (Z.of_nat nb) = Ok (Z.of_nat (pow2 nb))).
Proof. exact api_nat_model. Qed.
Print Assumptions C53_nat_model.

Example C53_case : log_2_word 5 = Ok 3 /\ log_2_word (2 ^ 63) = Ok 63 /\ get_bits_word 6 4 = Ok [false; true; true; false].
Proof. vm_compute. repeat split. Qed.
