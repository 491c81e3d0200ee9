(** Model of packages/Spartan-secq/src/r1csinstance.rs, of the sparse matrices of
    sparse_mlpoly.rs they use, of [Instance] and [Assignment] in lib.rs, and of the
    circom conversion in packages/circuit_reader/src/lib.rs. *)
From Coq Require Import List Arith Bool.
From Verif Require Import Base Field Vec MathModel PolyModel.
Import ListNotations.

Section R1cs.
  Variable K : Fld.
  Local Open Scope fld_scope.

  (** sparse_mlpoly.rs:19-24 *)
  Record entry : Type := MkEntry { erow : nat; ecol : nat; eval : K }.
  (** sparse_mlpoly.rs:32-37 *)
  Record sparse : Type := MkSparse { snx : nat; sny : nat; sM : list entry }.

  (** sparse_mlpoly.rs:457-471; [z[col]] and [Mz[r]] panic out of range *)
  Definition mul_step (z : list K) (acc : res (list K)) (e : entry) : res (list K) :=
    do Mz <- acc; do zc <- idx z (ecol e); do m <- idx Mz (erow e);
    Ok (upd Mz (erow e) (m + eval e * zc)).
  Definition sparse_multiply_vec (P : sparse) (num_rows num_cols : nat) (z : list K) : res (list K) :=
    assert (Nat.eqb (length z) num_cols);
    fold_left (mul_step z) (sM P) (Ok (repeat 0 num_rows)).
  (** sparse_mlpoly.rs:473-488 *)
  Definition table_step (rx : list K) (acc : res (list K)) (e : entry) : res (list K) :=
    do Me <- acc; do x <- idx rx (erow e); do m <- idx Me (ecol e);
    Ok (upd Me (ecol e) (m + x * eval e)).
  Definition sparse_eval_table (P : sparse) (rx : list K) (num_rows num_cols : nat) : res (list K) :=
    assert (Nat.eqb (length rx) num_rows);
    fold_left (table_step rx) (sM P) (Ok (repeat 0 num_cols)).
  (** sparse_mlpoly.rs:430-442 *)
  Definition evaluate_with_tables (P : sparse) (tx ty : list K) : res K :=
    assert (Nat.eqb (pow2 (snx P)) (length tx));
    assert (Nat.eqb (pow2 (sny P)) (length ty));
    do vs <- mapM (fun e => do a <- idx tx (erow e); do b <- idx ty (ecol e); Ok (a * b * eval e)) (sM P);
    Ok (fsum vs).
  (** sparse_mlpoly.rs:444-455 *)
  Definition multi_evaluate (Ps : list sparse) (rx ry : list K) : res (list K) :=
    let tx := eq_evals rx in let ty := eq_evals ry in
    mapM (fun P => evaluate_with_tables P tx ty) Ps.

  (** r1csinstance.rs:18-26 *)
  Record r1cs : Type := MkR1cs {
    rc_cons : nat; rc_vars : nat; rc_inputs : nat; rc_A : sparse; rc_B : sparse; rc_C : sparse }.

  (** r1csinstance.rs:84-136 *)
  Definition r1cs_new (num_cons num_vars num_inputs : nat) (A B C : list entry) : res r1cs :=
    assert (Nat.eqb (next_pow2 num_cons) num_cons);
    assert (Nat.eqb (next_pow2 num_vars) num_vars);
    assert (Nat.ltb num_inputs num_vars);
    do nx <- log_2 num_cons;
    do ny <- log_2 (2 * num_vars)%nat;
    Ok (MkR1cs num_cons num_vars num_inputs (MkSparse nx ny A) (MkSparse nx ny B) (MkSparse nx ny C)).

  (** r1csinstance.rs:235-265; the count of violated rows is compared with zero *)
  Definition rows_ok (num_cons : nat) (Az Bz Cz : list K) : bool :=
    forallb (fun i => feqb (nth i Az 0 * nth i Bz 0) (nth i Cz 0)) (seq 0 num_cons).
  Definition r1cs_is_sat (I : r1cs) (vars input : list K) : res bool :=
    assert (Nat.eqb (length vars) (rc_vars I));
    assert (Nat.eqb (length input) (rc_inputs I));
    let z := vars ++ [1] ++ input in
    let nc := (rc_vars I + rc_inputs I + 1)%nat in
    do Az <- sparse_multiply_vec (rc_A I) (rc_cons I) nc z;
    do Bz <- sparse_multiply_vec (rc_B I) (rc_cons I) nc z;
    do Cz <- sparse_multiply_vec (rc_C I) (rc_cons I) nc z;
    assert (Nat.eqb (length Az) (rc_cons I));
    assert (Nat.eqb (length Bz) (rc_cons I));
    assert (Nat.eqb (length Cz) (rc_cons I));
    Ok (rows_ok (rc_cons I) Az Bz Cz).

  (** r1csinstance.rs:267-281 *)
  Definition r1cs_multiply_vec (I : r1cs) (num_rows num_cols : nat) (z : list K)
    : res (dense K * dense K * dense K) :=
    assert (Nat.eqb num_rows (rc_cons I));
    assert (Nat.eqb (length z) num_cols);
    assert (Nat.ltb (rc_vars I) num_cols);
    do a <- sparse_multiply_vec (rc_A I) num_rows num_cols z; do a <- dense_new a;
    do b <- sparse_multiply_vec (rc_B I) num_rows num_cols z; do b <- dense_new b;
    do c <- sparse_multiply_vec (rc_C I) num_rows num_cols z; do c <- dense_new c;
    Ok (a, b, c).
  (** r1csinstance.rs:283-297 *)
  Definition r1cs_eval_table (I : r1cs) (num_rows num_cols : nat) (evals : list K)
    : res (list K * list K * list K) :=
    assert (Nat.eqb num_rows (rc_cons I));
    assert (Nat.ltb (rc_vars I) num_cols);
    do a <- sparse_eval_table (rc_A I) evals num_rows num_cols;
    do b <- sparse_eval_table (rc_B I) evals num_rows num_cols;
    do c <- sparse_eval_table (rc_C I) evals num_rows num_cols;
    Ok (a, b, c).
  (** r1csinstance.rs:299-302 *)
  Definition r1cs_evaluate (I : r1cs) (rx ry : list K) : res (K * K * K) :=
    do vs <- multi_evaluate [rc_A I; rc_B I; rc_C I] rx ry;
    do a <- idx vs 0; do b <- idx vs 1; do c <- idx vs 2; Ok (a, b, c).

  (** ** produce_synthetic_r1cs: r1csinstance.rs:155-233.  [rnd] is what the random
      generator returns for the [size_z] calls of [Scalar::random]. *)
  Definition syn_entry (num_vars size_z : nat) (Z : list K) (i : nat) : res (entry * entry * entry) :=
    let A_idx := (i mod size_z)%nat in
    let B_idx := ((i + 2) mod size_z)%nat in
    do za <- idx Z A_idx; do zb <- idx Z B_idx;
    let AB := za * zb in
    let C_idx := ((i + 3) mod size_z)%nat in
    do zc <- idx Z C_idx;
    if feqb zc 0 then Ok (MkEntry i A_idx 1, MkEntry i B_idx 1, MkEntry i num_vars AB)
    else do ic <- inv_unwrap zc; Ok (MkEntry i A_idx 1, MkEntry i B_idx 1, MkEntry i C_idx (AB * ic)).
  Definition produce_synthetic (num_cons num_vars num_inputs : nat) (rnd : list K)
    : res (r1cs * list K * list K) :=
    do lc <- log_2 num_cons; assert (Nat.eqb (pow2 lc) num_cons);
    do lv <- log_2 num_vars; assert (Nat.eqb (pow2 lv) num_vars);
    assert (Nat.ltb num_inputs num_vars);
    let size_z := (num_vars + num_inputs + 1)%nat in
    assert (Nat.ltb num_vars (length rnd));
    let Z := upd rnd num_vars 1 in
    do es <- mapM (syn_entry num_vars size_z Z) (seq 0 num_cons);
    do nx <- log_2 num_cons; do ny <- log_2 (2 * num_vars)%nat;
    let I := MkR1cs num_cons num_vars num_inputs
      (MkSparse nx ny (map (fun t => fst (fst t)) es))
      (MkSparse nx ny (map (fun t => snd (fst t)) es))
      (MkSparse nx ny (map snd es)) in
    let vars := firstn num_vars Z in let input := skipn (num_vars + 1) Z in
    do ok <- r1cs_is_sat I vars input;
    assert ok;
    Ok (I, vars, input).

  (** ** lib.rs: Assignment and Instance.  [bytes] stands for [[u8; 32]], [parse] for
      [Scalar::from_bytes] (see C02), [D] for the digest (zlib of bincode of the
      instance, r1csinstance.rs:149-153), computed by [digest_of]. *)
  Variable bytes : Type.
  Variable parse : bytes -> option K.
  Variable D : Type.
  Variable digest_of : r1cs -> D.

  (** lib.rs:64-88 *)
  Fixpoint assignment_new (l : list bytes) : res (list K) :=
    match l with
    | [] => Ok []
    | b :: t => match parse b with
                | Some x => do xs <- assignment_new t; Ok (x :: xs)
                | None => Err InvalidScalar
                end
    end.
  (** lib.rs:91-104 *)
  Definition assignment_pad (a : list K) (len : nat) : res (list K) :=
    assert (Nat.ltb (length a) len);
    Ok (a ++ repeat 0 (len - length a)).

  (** lib.rs:115-119 *)
  Record instance : Type := MkInstance { inst : r1cs; idigest : D }.

  (** lib.rs:132-143 *)
  Definition pad_vars (num_vars num_inputs : nat) : nat :=
    let m := Nat.max num_vars (num_inputs + 1) in
    if Nat.eqb (next_pow2 m) m then m else next_pow2 m.
  (** lib.rs:145-157: note that the second test looks at [num_cons] again *)
  Definition pad_cons (num_cons : nat) : nat :=
    let m := if Nat.eqb num_cons 0 || Nat.eqb num_cons 1 then 2%nat else num_cons in
    if Nat.eqb (next_pow2 num_cons) num_cons then m else next_pow2 num_cons.
  (** lib.rs:162-201 *)
  Fixpoint to_scalars (num_cons num_vars num_inputs : nat) (tups : list (nat * nat * bytes)) : res (list entry) :=
    match tups with
    | [] => Ok []
    | (row, col, b) :: t =>
        if Nat.leb num_cons row then Err InvalidIndex
        else if Nat.leb (num_vars + 1 + num_inputs) col then Err InvalidIndex
        else match parse b with
             | None => Err InvalidScalar
             | Some v =>
                 let col' := if Nat.leb num_vars col then (col + pad_vars num_vars num_inputs - num_vars)%nat else col in
                 do es <- to_scalars num_cons num_vars num_inputs t;
                 Ok (MkEntry row col' v :: es)
             end
    end.
  Definition pad_rows (num_cons num_vars : nat) (len : nat) : list entry :=
    if Nat.eqb num_cons 0 || Nat.eqb num_cons 1
    then map (fun i => MkEntry i num_vars 0) (seq len (pad_cons num_cons - len))
    else [].
  Definition bytes_to_scalar (num_cons num_vars num_inputs : nat) (tups : list (nat * nat * bytes)) : res (list entry) :=
    do es <- to_scalars num_cons num_vars num_inputs tups;
    Ok (es ++ pad_rows num_cons num_vars (length tups)).
  (** lib.rs:123-231 *)
  Definition instance_new (num_cons num_vars num_inputs : nat) (A B C : list (nat * nat * bytes)) : res instance :=
    do a <- bytes_to_scalar num_cons num_vars num_inputs A;
    do b <- bytes_to_scalar num_cons num_vars num_inputs B;
    do c <- bytes_to_scalar num_cons num_vars num_inputs C;
    do ri <- r1cs_new (pad_cons num_cons) (pad_vars num_vars num_inputs) num_inputs a b c;
    Ok (MkInstance ri (digest_of ri)).
  (** lib.rs:234-262 *)
  Definition instance_is_sat (I : instance) (vars inputs : list K) : res bool :=
    if Nat.ltb (rc_vars (inst I)) (length vars) then Err InvalidNumberOfInputs
    else if negb (Nat.eqb (length inputs) (rc_inputs (inst I))) then Err InvalidNumberOfInputs
    else
      do pv <- (if Nat.ltb (length vars) (rc_vars (inst I)) then assignment_pad vars (rc_vars (inst I)) else Ok vars);
      r1cs_is_sat (inst I) pv inputs.

  (** ** circuit_reader/src/circom_reader.rs:11-19; [F] is the reader's field type, which
      is not Spartan's *)
  Variable F : Type.
  Local Notation lin := (list (nat * F)).
  Record circom : Type := MkCircom { c_num_variables : nat; c_constraints : list (lin * lin * lin) }.
  (** circuit_reader/src/lib.rs:17-63; [to_repr] is [PrimeField::to_repr] *)
  Variable to_repr : F -> bytes.
  Definition rows_of (sel : lin * lin * lin -> lin) (cs : list (lin * lin * lin)) : list (nat * nat * bytes) :=
    concat (map (fun '(i, c) => map (fun '(j, x) => (i, j, to_repr x)) (sel c)) (combine (seq 0 (length cs)) cs)).
  Definition convert (r : circom) (num_pub_inputs : nat) : res instance :=
    match instance_new (length (c_constraints r)) (c_num_variables r) num_pub_inputs
      (rows_of (fun c => fst (fst c)) (c_constraints r))
      (rows_of (fun c => snd (fst c)) (c_constraints r))
      (rows_of (fun c => snd c) (c_constraints r)) with
    | Ok ii => Ok ii
    | _ => Panic
    end.
End R1cs.
Arguments MkEntry {K} erow ecol eval.
Arguments erow {K} e.
Arguments ecol {K} e.
Arguments eval {K} e.
Arguments MkSparse {K} snx sny sM.
Arguments snx {K} s.
Arguments sny {K} s.
Arguments sM {K} s.
Arguments mul_step {K} z acc e.
Arguments sparse_multiply_vec {K} P num_rows num_cols z.
Arguments table_step {K} rx acc e.
Arguments sparse_eval_table {K} P rx num_rows num_cols.
Arguments evaluate_with_tables {K} P tx ty.
Arguments multi_evaluate {K} Ps rx ry.
Arguments MkR1cs {K} rc_cons rc_vars rc_inputs rc_A rc_B rc_C.
Arguments rc_cons {K} r.
Arguments rc_vars {K} r.
Arguments rc_inputs {K} r.
Arguments rc_A {K} r.
Arguments rc_B {K} r.
Arguments rc_C {K} r.
Arguments r1cs_new {K} num_cons num_vars num_inputs A B C.
Arguments rows_ok {K} num_cons Az Bz Cz.
Arguments r1cs_is_sat {K} I vars input.
Arguments r1cs_multiply_vec {K} I num_rows num_cols z.
Arguments r1cs_eval_table {K} I num_rows num_cols evals.
Arguments r1cs_evaluate {K} I rx ry.
Arguments syn_entry {K} num_vars size_z Z i.
Arguments produce_synthetic {K} num_cons num_vars num_inputs rnd.
Arguments assignment_new {K bytes} parse l.
Arguments assignment_pad {K} a len.
Arguments MkInstance {K D} inst idigest.
Arguments inst {K D} i.
Arguments idigest {K D} i.
Arguments to_scalars {K bytes} parse num_cons num_vars num_inputs tups.
Arguments pad_rows {K} num_cons num_vars len.
Arguments bytes_to_scalar {K bytes} parse num_cons num_vars num_inputs tups.
Arguments instance_new {K bytes} parse {D} digest_of num_cons num_vars num_inputs A B C.
Arguments instance_is_sat {K D} I vars inputs.
Arguments MkCircom {F} c_num_variables c_constraints.
Arguments c_num_variables {F} c.
Arguments c_constraints {F} c.
Arguments rows_of {bytes F} to_repr sel cs.
Arguments convert {K bytes} parse {D} digest_of {F} to_repr r num_pub_inputs.
