(** C69: provers who know how the points they send are built from the generators, against
    challenges drawn at random; C70: when the NIZK verifier accepts. *)
From Coq Require Import String List Arith ZArith Bool.
From Verif Require Import Base ListAux Field Zq Vec MathModel PolyModel PolySpec R1csModel R1csSpec R1csApi CommitModel SigmaModel CommitSpec SigmaApi.
From Verif Require Import SumModel NizkModel NizkApi EvalSpec AgmSpec AgmApi EqSpec FreeSpec FreeApi.
Import ListNotations.

(** C69: a prover sends, with every encoding of a point, the coefficients of that point in
    the first [N] generators.  If the vector in the witness commitments does not satisfy the
    instance, the verifier accepts without one of the equations being a relation between the
    generators only for rare challenges: at every draw at most six values are bad *)
Theorem C69_algebraic_soundness (K : Fld) (bytes : Type) (parse : bytes -> option K) (digest_of : r1cs K -> list nat) (G : Mod K) (E : Enc G)
    (nc nv ni : nat) (A B C : list (nat * nat * bytes)) (I : instance K (list nat)) (N : nat) (stream : nat -> G)
    (g : r1csgens G) (gF : r1csgens (free K N)) (input : list K) (tr : log E) :
  instance_new parse digest_of nc nv ni A B C = Ok I -> nizkgens_new nv ni stream = Ok g -> nizkgens_new nv ni (unit_vec N) = Ok gF ->
  let a := Nat.log2_up (pad_cons nc) in let b := Nat.log2_up (pad_vars nv ni) in let k := (b - b / 2)%nat in
  (5 <= N)%nat -> (2 ^ k + 1 < N)%nat ->
  forall s : nizk_plan (known_enc E N stream) a b k,
  instance_is_sat I (firstn (2 ^ b) (committed (fun i (v : free K N) => entry i v) (2 ^ k) (fst s))) input <> Ok true ->
  rare 6 (nizk_coins a b k) (fun cs =>
    (exists tr', nizk_verify (coins tr cs) (nizk_over (bare E N stream) (nizk_sent s cs)) I input tr g = Ok tr') /\
    ~ exists w, In w (nizk_eqs a b (inst I) input gF (nizk_sent s cs) cs) /\ w <> g0 /\ combine_gens N stream w = g0).
Proof. exact (api_agm_real parse digest_of E nc nv ni A B C I N stream g gF input tr). Qed.
Print Assumptions C69_algebraic_soundness.

Example C69_algebraic_soundness_case : exists ii g gF, nz_unsat = Ok ii /\ nizkgens_new 1 1 exStream = Ok g /\ nizkgens_new 1 1 (unit_vec (K:=Fp) 5) = Ok gF /\
  Nat.log2_up (pad_cons 1) = 1%nat /\ Nat.log2_up (pad_vars 1 1) = 1%nat /\ (2 ^ (1 - 1 / 2) + 1 < 5)%nat /\
  exists s : nizk_plan (known_enc exE 5 exStream) 1 1 (1 - 1 / 2), map point (fst s) = [unit_vec 5 0; unit_vec 5 1] /\
  instance_is_sat ii (firstn (2 ^ 1) (committed (fun i (v : free Fp 5) => entry i v) (2 ^ (1 - 1 / 2)) (fst s))) [fp 3] <> Ok true.
Proof. exact case69. Qed.

(** C69: counted, for an input with no satisfying witness: of the [q^n] lists of [n]
    challenges from a set of [q] values, the part on which such a prover is accepted without
    a relation is at most [6 n / q] *)
Theorem C69_accepted_part (K : Fld) (bytes : Type) (parse : bytes -> option K) (digest_of : r1cs K -> list nat) (G : Mod K) (E : Enc G)
    (nc nv ni : nat) (A B C : list (nat * nat * bytes)) (I : instance K (list nat)) (N : nat) (stream : nat -> G)
    (g : r1csgens G) (gF : r1csgens (free K N)) (input : list K) (tr : log E) :
  instance_new parse digest_of nc nv ni A B C = Ok I -> nizkgens_new nv ni stream = Ok g -> nizkgens_new nv ni (unit_vec N) = Ok gF ->
  let a := Nat.log2_up (pad_cons nc) in let b := Nat.log2_up (pad_vars nv ni) in let k := (b - b / 2)%nat in let n := nizk_coins a b k in
  (5 <= N)%nat -> (2 ^ k + 1 < N)%nat -> (forall vars, instance_is_sat I vars input <> Ok true) ->
  forall (s : nizk_plan (known_enc E N stream) a b k) (Q : list K) (V : list (list K)), NoDup Q -> NoDup V ->
  (forall cs, In cs V -> length cs = n /\ incl cs Q /\
    (exists tr', nizk_verify (coins tr cs) (nizk_over (bare E N stream) (nizk_sent s cs)) I input tr g = Ok tr') /\
    ~ exists w, In w (nizk_eqs a b (inst I) input gF (nizk_sent s cs) cs) /\ w <> g0 /\ combine_gens N stream w = g0) ->
  (length V * length Q <= n * 6 * length Q ^ n)%nat.
Proof. exact (api_agm_count parse digest_of E nc nv ni A B C I N stream g gF input tr). Qed.
Print Assumptions C69_accepted_part.

Example C69_accepted_part_case : exists ii g, nz_unsat = Ok ii /\ nizkgens_new 1 1 exStream = Ok g /\
  (forall vars input, instance_is_sat ii vars input <> Ok true) /\
  (forall y, exists pf tr', nizk_verify (E:=exE) (fun _ => fp 5) pf ii [y] [] g = Ok tr').
Proof. exact case31. Qed.

(** C69: the same in any group where the coefficients of a point are determined, and the
    prover's points come without them *)
Theorem C69_independent_generators (K : Fld) (bytes : Type) (parse : bytes -> option K) (digest_of : r1cs K -> list nat) (G : Mod K) (E : Enc G)
    (nc nv ni : nat) (A B C : list (nat * nat * bytes)) (I : instance K (list nat)) (N : nat) (stream : nat -> G) (co : nat -> G -> K)
    (g : r1csgens G) (input : list K) (tr : log E) :
  instance_new parse digest_of nc nv ni A B C = Ok I -> nizkgens_new nv ni stream = Ok g -> coordinates N stream co ->
  let a := Nat.log2_up (pad_cons nc) in let b := Nat.log2_up (pad_vars nv ni) in let k := (b - b / 2)%nat in
  (5 <= N)%nat -> (2 ^ k + 1 < N)%nat ->
  forall s : nizk_plan E a b k,
  instance_is_sat I (firstn (2 ^ b) (committed co (2 ^ k) (fst s))) input <> Ok true ->
  rare 6 (nizk_coins a b k) (fun cs => exists tr', nizk_verify (coins tr cs) (nizk_sent s cs) I input tr g = Ok tr').
Proof. exact (api_agm parse digest_of nc nv ni A B C I N stream co g input tr). Qed.
Print Assumptions C69_independent_generators.

Example C69_independent_generators_case : coordinates 5 (unit_vec 5) (fun i (v : free Fp 5) => entry i v) /\ exists g, nizkgens_new 1 1 (unit_vec (K:=Fp) 5) = Ok g.
Proof. exact case69_free. Qed.

(** C70: a proof with as many points R as points L is accepted exactly when it is well formed
    and every equation holds *)
Theorem C70_accepts_iff (K : Fld) (bytes : Type) (parse : bytes -> option K) (digest_of : r1cs K -> list nat) (G : Mod K) (E : Enc G)
    (nc nv ni : nat) (A B C : list (nat * nat * bytes)) (I : instance K (list nat)) (stream : nat -> G)
    (g : r1csgens G) (input : list K) (pf : nizk E) (tr : log E) (cs : list K) :
  instance_new parse digest_of nc nv ni A B C = Ok I -> nizkgens_new nv ni stream = Ok g ->
  let a := Nat.log2_up (pad_cons nc) in let b := Nat.log2_up (pad_vars nv ni) in
  length (bp_R (lp_bullet (rp_eval (nz_proof pf)))) = length (bp_L (lp_bullet (rp_eval (nz_proof pf)))) ->
  length cs = nizk_coins a b (b - b / 2) ->
  (exists tr', nizk_verify (coins tr cs) pf I input tr g = Ok tr') <->
  (nizk_wf a b (inst I) input pf cs /\ forall w, In w (nizk_eqs a b (inst I) input g pf cs) -> w = g0).
Proof. exact (api_accepts_iff parse digest_of nc nv ni A B C I stream g input pf tr cs). Qed.
Print Assumptions C70_accepts_iff.

Example C70_accepts_iff_case : exists ii g pf tr', instance_new zparse (fun _ => [1; 2; 3]%nat) 1 1 1 nzA nzA nzC = Ok ii /\ nizkgens_new 1 1 exStream = Ok g /\
  length (bp_R (lp_bullet (rp_eval (nz_proof pf)))) = length (bp_L (lp_bullet (rp_eval (nz_proof pf)))) /\
  length fcs = nizk_coins 1 1 1 /\ Nat.log2_up (pad_cons 1) = 1%nat /\ Nat.log2_up (pad_vars 1 1) = 1%nat /\
  nizk_verify (E:=exE) (coins [] fcs) pf ii [fp 25] [] g = Ok tr'.
Proof. exact case70. Qed.
