(** Properties C14-C18, C37 and C54: constraint systems and sparse matrices.
    [K] is any field; [bytes]/[parse] stand for 32-byte arrays and
    [Scalar::from_bytes] (C02), [digest_of] for the zlib digest.  [sat], [fit],
    [mat], [circom_sat] are in R1csSpec.v, [mle] in PolySpec.v. *)
From Coq Require Import List Arith ZArith Bool Lia.
From Verif Require Import Base Field Zq Vec MathModel PolyModel PolySpec R1csModel R1csSpec R1csProofs R1csMore R1csApi R1csShape.
Import ListNotations.
Local Open Scope fld_scope.

(** for every acceptable system: [is_sat] answers, for every assignment of at most
    the padded number of variables, whether the user's own matrices are satisfied by
    (variables cut or zero-extended to [nv], 1, inputs); anything else is an error *)
Theorem C14_is_sat_decides : forall (K : Fld) (bytes : Type) (parse : bytes -> option K) (D : Type) (digest_of : r1cs K -> D)
    (nc nv ni : nat) (A B C : list (nat * nat * bytes)) (VA VB VC : list (nat * nat * K)),
  triples_ok parse nc nv ni A VA -> triples_ok parse nc nv ni B VB -> triples_ok parse nc nv ni C VC ->
  exists I, instance_new parse digest_of nc nv ni A B C = Ok I /\
    forall vars inputs,
      if Nat.leb (length vars) (next_pow2 (Nat.max nv (ni + 1))) && Nat.eqb (length inputs) ni
      then exists b, instance_is_sat I vars inputs = Ok b /\
             (b = true <-> sat nc VA VB VC (fit nv vars ++ [1] ++ inputs))
      else instance_is_sat I vars inputs = Err InvalidNumberOfInputs.
Proof. exact api_is_sat. Qed.
Print Assumptions C14_is_sat_decides.

Example C14_case : triples_ok zparse 2 2 1 exA exVA /\ triples_ok zparse 2 2 1 exB exVB /\ triples_ok zparse 2 2 1 exC exVC /\
  let sat vars inputs := (do ii <- instance_new zparse (fun _ => tt) 2 2 1 exA exB exC; instance_is_sat ii vars inputs) in
  sat [fp 3; fp 9] [fp 0] = Ok true /\ sat [fp 3; fp 9] [fp 1] = Ok false /\
  sat [fp 3; fp 9; fp 1] [fp 0] = Err InvalidNumberOfInputs /\ sat [fp 3; fp 9] [] = Err InvalidNumberOfInputs.
Proof. exact case14. Qed.

Theorem C15_accepts_or_first_error : forall (K : Fld) (bytes : Type) (parse : bytes -> option K) (D : Type) (digest_of : r1cs K -> D)
    (nc nv ni : nat) (A B C : list (nat * nat * bytes)),
  match first_bad parse nc nv ni A, first_bad parse nc nv ni B, first_bad parse nc nv ni C with
  | Some x, _, _ => instance_new parse digest_of nc nv ni A B C = Err x
  | None, Some x, _ => instance_new parse digest_of nc nv ni A B C = Err x
  | None, None, Some x => instance_new parse digest_of nc nv ni A B C = Err x
  | None, None, None => exists I, instance_new parse digest_of nc nv ni A B C = Ok I
  end.
Proof. exact api_accepts. Qed.
Print Assumptions C15_accepts_or_first_error.

Theorem C15_dimensions : forall (K : Fld) (bytes : Type) (parse : bytes -> option K) (D : Type) (digest_of : r1cs K -> D)
    (nc nv ni : nat) (A B C : list (nat * nat * bytes)) I,
  instance_new parse digest_of nc nv ni A B C = Ok I ->
  (nc <= rc_cons (inst I))%nat /\ (exists k, rc_cons (inst I) = 2 ^ k)%nat /\
  (nv <= rc_vars (inst I))%nat /\ (ni + 1 <= rc_vars (inst I))%nat /\ (exists k, rc_vars (inst I) = 2 ^ k)%nat /\
  rc_inputs (inst I) = ni.
Proof. exact api_dims. Qed.
Print Assumptions C15_dimensions.

(** and they are the least such sizes; a single constraint is padded to two *)
Theorem C15_dimensions_least : forall (K : Fld) (bytes : Type) (parse : bytes -> option K) (D : Type) (digest_of : r1cs K -> D)
    (nc nv ni : nat) (A B C : list (nat * nat * bytes)) I,
  instance_new parse digest_of nc nv ni A B C = Ok I ->
  forall k, ((nc <= 2 ^ k -> (nc = 1 -> 1 <= k) -> rc_cons (inst I) <= 2 ^ k) /\
             (nv <= 2 ^ k -> ni + 1 <= 2 ^ k -> rc_vars (inst I) <= 2 ^ k))%nat.
Proof. exact dims_least. Qed.
Print Assumptions C15_dimensions_least.

(** [Assignment::new] returns the parsed scalars, or [InvalidScalar] exactly if one of them is invalid *)
Theorem C15_assignment : forall (K : Fld) (bytes : Type) (parse : bytes -> option K) (l : list bytes),
  (forall xs, assignment_new parse l = Ok xs <-> map parse l = map Some xs) /\
  (assignment_new parse l = Err InvalidScalar <-> exists b, In b l /\ parse b = None) /\
  assignment_new parse l <> Panic.
Proof. exact assignment_spec. Qed.
Print Assumptions C15_assignment.

(** the constructor below [Instance::new] takes powers of two and fewer inputs than variables, keeps the
    entries, and panics on anything else *)
Theorem C15_constructor : forall (K : Fld) (nc nv ni : nat) (A B C : list (entry K)),
  match r1cs_new nc nv ni A B C with
  | Ok ii => (exists a, nc = 2 ^ a /\ (forall P, In P [rc_A ii; rc_B ii; rc_C ii] -> snx P = a))%nat /\
            (exists b, nv = 2 ^ b /\ forall P, In P [rc_A ii; rc_B ii; rc_C ii] -> sny P = S b)%nat /\ (ni < nv)%nat /\
            rc_cons ii = nc /\ rc_vars ii = nv /\ rc_inputs ii = ni /\ sM (rc_A ii) = A /\ sM (rc_B ii) = B /\ sM (rc_C ii) = C
  | Err _ => False
  | Panic => ~ ((exists a, nc = 2 ^ a)%nat /\ (exists b, nv = 2 ^ b)%nat /\ (ni < nv)%nat)
  end.
Proof. exact r1cs_new_spec. Qed.
Print Assumptions C15_constructor.

Example C15_case :
  assignment_new zparse [3; 4]%Z = Ok [fp 3; fp 4] /\ assignment_new zparse [3; Primes.p; 4]%Z = Err InvalidScalar /\
  (do ii <- r1cs_new (K:=Fp) 4 2 1 [] [] []; Ok tt) = Ok tt /\ (do ii <- r1cs_new (K:=Fp) 4 2 2 [] [] []; Ok tt) = Panic /\ (do ii <- r1cs_new (K:=Fp) 3 2 1 [] [] []; Ok tt) = Panic /\
  first_bad zparse 2 2 1 [(0, 3, 5%Z); (0, 4, 0%Z); (2, 0, 0%Z)]%nat = Some InvalidIndex /\
  first_bad zparse 2 2 1 [(0, 3, 5%Z); (1, 0, Primes.p); (2, 0, 0%Z)]%nat = Some InvalidScalar /\
  first_bad zparse 2 2 1 exC = None /\
  (do ii <- instance_new zparse (fun _ => tt) 2 2 1 exA exB [(1, 0, Primes.p)]%nat; Ok tt) = Err InvalidScalar /\
  (do ii <- instance_new zparse (fun _ => tt) 3 2 2 exA exB exC; Ok (rc_cons (inst ii), rc_vars (inst ii))) = Ok (4, 4)%nat.
Proof. zqs. Qed.

Theorem C16_at_least_two : forall (K : Fld) (bytes : Type) (parse : bytes -> option K) (D : Type) (digest_of : r1cs K -> D)
    (nc nv ni : nat) (A B C : list (nat * nat * bytes)) I,
  (1 <= nc)%nat -> instance_new parse digest_of nc nv ni A B C = Ok I -> (2 <= rc_cons (inst I))%nat.
Proof. exact api_two. Qed.
Print Assumptions C16_at_least_two.

(** for no constraint at all the promise fails *)
Theorem C16_zero_constraints_refuted : forall (K : Fld) (bytes : Type) (parse : bytes -> option K) (D : Type) (digest_of : r1cs K -> D) (nv ni : nat),
  exists I, instance_new parse digest_of 0 nv ni [] [] [] = Ok I /\ rc_cons (inst I) = 1%nat.
Proof. exact api_zero_cons. Qed.
Print Assumptions C16_zero_constraints_refuted.

Example C16_case : (do ii <- instance_new zparse (fun _ => tt) 1 2 1 [(0, 0, 1%Z)]%nat [] []; Ok (rc_cons (inst ii))) = Ok 2%nat.
Proof. zqs. Qed.

(** the converted instance accepts exactly the wire assignments that satisfy the circom
    constraints, each coefficient [x] of the reader's field type being read as the
    scalar [f x] that its bytes stand for in Spartan (PropsRead.v instantiates this) *)
Theorem C17_converted_iff : forall (K : Fld) (bytes : Type) (parse : bytes -> option K) (D : Type) (digest_of : r1cs K -> D)
    (F : Type) (to_repr : F -> bytes) (f : F -> K) (r : circom F) (ni : nat),
  coeffs (fun x => parse (to_repr x) = Some (f x)) (c_constraints r) -> wires_ok (c_num_variables r) (c_constraints r) ->
  exists I, convert parse digest_of to_repr r ni = Ok I /\
    forall w inputs, length w = c_num_variables r -> length inputs = ni ->
      exists b, instance_is_sat I w inputs = Ok b /\ (b = true <-> circom_sat (cons_map f (c_constraints r)) w).
Proof. exact api_convert. Qed.
Print Assumptions C17_converted_iff.

(** the public inputs are not bound: satisfaction does not depend on them, and the
    all-zero assignment satisfies every converted circuit for every input *)
Theorem C18_public_inputs_refuted : forall (K : Fld) (bytes : Type) (parse : bytes -> option K) (D : Type) (digest_of : r1cs K -> D)
    (F : Type) (to_repr : F -> bytes) (r : circom F) (ni : nat),
  coeffs (fun x => parse (to_repr x) <> None) (c_constraints r) -> wires_ok (c_num_variables r) (c_constraints r) ->
  exists I, convert parse digest_of to_repr r ni = Ok I /\
    (forall w inputs inputs', length w = c_num_variables r -> length inputs = ni -> length inputs' = ni ->
       instance_is_sat I w inputs = instance_is_sat I w inputs') /\
    (forall inputs, length inputs = ni -> instance_is_sat I (repeat 0 (c_num_variables r)) inputs = Ok true).
Proof. exact api_unbound. Qed.
Print Assumptions C18_public_inputs_refuted.

(** a circuit with public wire w1, w2 * w2 = w1 and w1 = 25 (the constant 1 is wire 0) *)
Example C17_C18_case : wires_ok (c_num_variables exCircom) (c_constraints exCircom) /\ (forall x, zparse (zrepr x) = Some x) /\
  let sat w inputs := (do ii <- convert zparse (fun _ => tt) zrepr exCircom 1; instance_is_sat ii w inputs) in
  sat [fp 1; fp 25; fp 5] [fp 25] = Ok true /\
  sat [fp 1; fp 25; fp 6] [fp 25] = Ok false /\
  sat [fp 1; fp 25; fp 5] [fp 7] = Ok true /\
  sat [fp 0; fp 0; fp 0] [fp 7] = Ok true.
Proof. exact case17. Qed.

Theorem C37_multiply_vec : forall (K : Fld) (P : sparse K) nr nc (z : list K), length z = nc -> ents_ok nr nc (sM P) ->
  exists l, sparse_multiply_vec P nr nc z = Ok l /\ length l = nr /\
    forall i, (i < nr)%nat -> nth i l 0 = sumn nc (fun j => mat (triples (sM P)) i j * nth j z 0).
Proof. exact api_mul. Qed.
Print Assumptions C37_multiply_vec.

Theorem C37_eval_table : forall (K : Fld) (P : sparse K) (rx : list K) nr nc, length rx = nr -> ents_ok nr nc (sM P) ->
  exists l, sparse_eval_table P rx nr nc = Ok l /\ length l = nc /\
    forall j, (j < nc)%nat -> nth j l 0 = sumn nr (fun i => nth i rx 0 * mat (triples (sM P)) i j).
Proof. exact eval_table_ok. Qed.
Print Assumptions C37_eval_table.

Theorem C37_multi_evaluate : forall (K : Fld) (Ps : list (sparse K)) (rx ry : list K),
  (forall P, In P Ps -> snx P = length rx /\ sny P = length ry /\ ents_ok (2 ^ length rx) (2 ^ length ry) (sM P)) ->
  multi_evaluate Ps rx ry = Ok (map (fun P => mle (mat_table (triples (sM P)) (2 ^ length rx) (2 ^ length ry)) (rx ++ ry)) Ps).
Proof. exact multi_evaluate_ok. Qed.
Print Assumptions C37_multi_evaluate.

Theorem C37_table_agrees : forall (K : Fld) (P : sparse K) (rx ry : list K), ents_ok (2 ^ length rx) (2 ^ length ry) (sM P) ->
  exists l, sparse_eval_table P (eq_evals rx) (2 ^ length rx) (2 ^ length ry) = Ok l /\
    length l = (2 ^ length ry)%nat /\
    mle l ry = mle (mat_table (triples (sM P)) (2 ^ length rx) (2 ^ length ry)) (rx ++ ry).
Proof. exact table_then_eval. Qed.
Print Assumptions C37_table_agrees.

(** instances built by [Instance::new] meet the hypotheses of [multi_evaluate] *)
Theorem C37_instance_evaluate : forall (K : Fld) (bytes : Type) (parse : bytes -> option K) (D : Type) (digest_of : r1cs K -> D)
    (nc nv ni : nat) (A B C : list (nat * nat * bytes)) I (rx ry : list K),
  instance_new parse digest_of nc nv ni A B C = Ok I ->
  rc_cons (inst I) = (2 ^ length rx)%nat -> (2 * rc_vars (inst I) = 2 ^ length ry)%nat ->
  let M := fun P => mle (mat_table (triples (sM P)) (2 ^ length rx) (2 ^ length ry)) (rx ++ ry) in
  r1cs_evaluate (inst I) rx ry = Ok (M (rc_A (inst I)), M (rc_B (inst I)), M (rc_C (inst I))).
Proof. exact api_new_evaluate. Qed.
Print Assumptions C37_instance_evaluate.

(** the three products and the three tables of an instance belong to its three matrices *)
Theorem C37_instance_multiply : forall (K : Fld) (I : r1cs K) (z : list K), r1cs_wf I -> (rc_inputs I < rc_vars I)%nat -> length z = (2 * rc_vars I)%nat ->
  (exists k, rc_cons I = 2 ^ k)%nat ->
  exists a b c, r1cs_multiply_vec I (rc_cons I) (length z) z = Ok (a, b, c) /\
    length (dZ a) = rc_cons I /\ length (dZ b) = rc_cons I /\ length (dZ c) = rc_cons I /\
    forall i, (i < rc_cons I)%nat ->
      nth i (dZ a) 0 = sumn (length z) (fun j => mat (triples (sM (rc_A I))) i j * nth j z 0) /\
      nth i (dZ b) 0 = sumn (length z) (fun j => mat (triples (sM (rc_B I))) i j * nth j z 0) /\
      nth i (dZ c) 0 = sumn (length z) (fun j => mat (triples (sM (rc_C I))) i j * nth j z 0).
Proof. exact multiply_three. Qed.
Print Assumptions C37_instance_multiply.

Theorem C37_instance_tables : forall (K : Fld) (I : r1cs K) (e : list K), r1cs_wf I -> (rc_inputs I < rc_vars I)%nat -> length e = rc_cons I ->
  let n := (2 * rc_vars I)%nat in
  exists ta tb tc, r1cs_eval_table I (rc_cons I) n e = Ok (ta, tb, tc) /\ length ta = n /\ length tb = n /\ length tc = n /\
    forall j : nat, (j < n)%nat ->
      nth j ta 0 = sumn (rc_cons I) (fun i => nth i e 0 * mat (triples (sM (rc_A I))) i j) /\
      nth j tb 0 = sumn (rc_cons I) (fun i => nth i e 0 * mat (triples (sM (rc_B I))) i j) /\
      nth j tc 0 = sumn (rc_cons I) (fun i => nth i e 0 * mat (triples (sM (rc_C I))) i j).
Proof. exact eval_tables. Qed.
Print Assumptions C37_instance_tables.

Example C37_case : let P := MkSparse 1 2 [MkEntry 1 3 (fp 5); MkEntry 0 2 (fp 7); MkEntry 1 3 (fp 2)] in
  ents_ok 2 4 (sM P) /\
  sparse_multiply_vec P 2 4 [fp 1; fp 2; fp 3; fp 4] = Ok [fp 21; fp 28] /\
  sparse_eval_table P [fp 10; fp 100] 2 4 = Ok [fp 0; fp 0; fp 70; fp 700] /\
  multi_evaluate [P] [fp 1] [fp 1; fp 1] = Ok [fp 7] /\
  mat (triples (sM P)) 1 3 = fp 7.
Proof.
  split; [|zqs]. intros e H. repeat (destruct H as [<-|H]; [split; cbn; lia|]). destruct H.
Qed.

Theorem C54_synthetic_satisfied : forall (K : Fld) a b ni (rnd : list K), (ni < 2 ^ b)%nat -> length rnd = (2 ^ b + ni + 1)%nat ->
  exists I vars inputs, produce_synthetic (2 ^ a) (2 ^ b) ni rnd = Ok (I, vars, inputs) /\
    rc_cons I = (2 ^ a)%nat /\ rc_vars I = (2 ^ b)%nat /\ rc_inputs I = ni /\
    vars = firstn (2 ^ b) rnd /\ inputs = skipn (2 ^ b + 1) rnd /\ r1cs_wf I /\
    r1cs_is_sat I vars inputs = Ok true.
Proof. exact produce_synthetic_ok. Qed.
Print Assumptions C54_synthetic_satisfied.

Example C54_case : (do t <- produce_synthetic 4 2 1 [fp 3; fp 0; fp 9; fp 4];
    let '(ri, vars, inputs) := t in Ok (vars, inputs, map (fun e => (erow e, ecol e, eval e)) (sM (rc_C ri)))) =
  Ok ([fp 3; fp 0], [fp 4], [(0%nat, 3%nat, fp 3 / fp 4); (1%nat, 0%nat, fp 0); (2%nat, 2%nat, fp 3); (3%nat, 2%nat, fp 0)]).
Proof. zqs. Qed.
