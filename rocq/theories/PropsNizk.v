(** Properties C30-C33: the non-interactive proof system as a whole.  [unless H l v k P]
    (CommitSpec.v) says that [P] holds unless the challenge drawn at one of [k] particular
    transcript states is [v]; [H] is the transcript's challenge function, any function of
    everything absorbed so far. *)
From Coq Require Import String List Arith ZArith Bool Lia.
From Verif Require Import Base Field Zq Vec MathModel PolyModel PolySpec R1csModel R1csSpec R1csApi CommitModel SigmaModel CommitSpec SigmaApi SumModel SumApi NizkModel NizkSpec NizkApi BindSpec BindProofs.
Import ListNotations.
Local Open Scope fld_scope.

(** for every instance with a constraint and every satisfying assignment: a proof the prover returns is
    accepted, with the verifier's transcript ending where the prover's did (C33), and the prover
    returns one unless a challenge it must invert is zero.  [b] is the number of bits of the padded
    number of variables. *)
Theorem C30_nizk_complete : forall (K : Fld) (G : Mod K) (E : Enc G) (H : log E -> K), (of_nat 2 : K) <> 0 -> (of_nat 3 : K) <> 0 ->
  forall (bytes : Type) (parse : bytes -> option K) (digest_of : r1cs K -> list nat)
    (nc nv ni : nat) (A B C : list (nat * nat * bytes)) (I : instance K (list nat)) (stream : nat -> G) (g : r1csgens G)
    (vars input : list K) (seed : K) (tr : log E),
  (1 <= nc)%nat -> instance_new parse digest_of nc nv ni A B C = Ok I -> instance_is_sat I vars input = Ok true ->
  nizkgens_new nv ni stream = Ok g ->
  let b := Nat.log2_up (next_pow2 (Nat.max nv (ni + 1))) in
  (b - b / 2 < 32)%nat ->
  (forall pf tr', nizk_prove H I vars input g seed tr = Ok (pf, tr') -> nizk_verify H pf I input tr g = Ok tr') /\
  unless H "u" 0 (b - b / 2) (exists r, nizk_prove H I vars input g seed tr = Ok r).
Proof. exact @api_nizk_complete. Qed.
Print Assumptions C30_nizk_complete.

(** with no constraint at all the prover aborts although every assignment satisfies the instance *)
Theorem C30_zero_constraints_refuted : forall (K : Fld) (G : Mod K) (E : Enc G) (H : log E -> K)
    (bytes : Type) (parse : bytes -> option K) (digest_of : r1cs K -> list nat)
    (nv ni : nat) (A B C : list (nat * nat * bytes)) (I : instance K (list nat)) (stream : nat -> G) (g : r1csgens G)
    (vars input : list K) (seed : K) (tr : log E),
  instance_new parse digest_of 0 nv ni A B C = Ok I -> instance_is_sat I vars input = Ok true ->
  nizkgens_new nv ni stream = Ok g ->
  nizk_prove H I vars input g seed tr = Panic.
Proof. exact @api_zero_panic. Qed.
Print Assumptions C30_zero_constraints_refuted.

(** x * x = y with private x and public y *)
Example C30_case : nz_run nzA nzA nzC [fp 5] [fp 25] [fp 25] = Ok tt /\ (of_nat 2 : Fp) <> 0 /\ (of_nat 3 : Fp) <> 0.
Proof. split; [zqs|exact two_three_fp]. Qed.
Example C30_case_wrong_input : nz_run nzA nzA nzC [fp 5] [fp 25] [fp 26] = Err InternalError.
Proof. zqs. Qed.

(** C31 as stated is false: for every instance with a constraint, satisfiable or not, and every
    input there is an accepted proof, unless one particular challenge is 1 or one of
    [b - b / 2] particular challenges is 0 *)
Theorem C31_soundness_refuted : forall (K : Fld) (G : Mod K) (E : Enc G) (H : log E -> K)
    (bytes : Type) (parse : bytes -> option K) (digest_of : r1cs K -> list nat)
    (nc nv ni : nat) (A B C : list (nat * nat * bytes)) (I : instance K (list nat)) (stream : nat -> G) (g : r1csgens G)
    (input : list K) (tr : log E),
  (1 <= nc)%nat -> instance_new parse digest_of nc nv ni A B C = Ok I -> length input = ni ->
  nizkgens_new nv ni stream = Ok g ->
  let b := Nat.log2_up (next_pow2 (Nat.max nv (ni + 1))) in
  (b - b / 2 < 32)%nat ->
  exists pf, unless H "challenge_nextround" 1 1 (unless H "u" 0 (b - b / 2) (exists tr', nizk_verify H pf I input tr g = Ok tr')).
Proof. exact @api_nizk_forged. Qed.
Print Assumptions C31_soundness_refuted.

(** the system 1 * 1 = 0, and a challenge function under which no condition arises *)
Example C31_case : exists ii g, nz_unsat = Ok ii /\ nizkgens_new 1 1 exStream = Ok g /\
  (forall vars input, instance_is_sat ii vars input <> Ok true) /\
  (forall y, exists pf tr', nizk_verify (E:=exE) (fun _ => fp 5) pf ii [y] [] g = Ok tr').
Proof. exact case31. Qed.

(** C32 as stated is false: the verifier aborts if a claimed point has the wrong number of
    coordinates, ... *)
Theorem C32_point_length_refuted : forall (K : Fld) (G : Mod K) (E : Enc G) (H : log E -> K)
    (bytes : Type) (parse : bytes -> option K) (digest_of : r1cs K -> list nat)
    (nc nv ni : nat) (A B C : list (nat * nat * bytes)) (I : instance K (list nat)) (g : r1csgens G) (input : list K) (tr : log E) (pf : nizk E),
  instance_new parse digest_of nc nv ni A B C = Ok I ->
  (rc_cons (inst I) <> 2 ^ length (nz_rx pf) \/ 2 * rc_vars (inst I) <> 2 ^ length (nz_ry pf))%nat ->
  nizk_verify H pf I input tr g = Panic.
Proof. exact @api_panic_points. Qed.
Print Assumptions C32_point_length_refuted.

(** ... if the number of public inputs is not the instance's, ... *)
Theorem C32_input_count_refuted : forall (K : Fld) (G : Mod K) (E : Enc G) (H : log E -> K)
    (bytes : Type) (parse : bytes -> option K) (digest_of : r1cs K -> list nat)
    (nc nv ni : nat) (A B C : list (nat * nat * bytes)) (I : instance K (list nat)) (g : r1csgens G) (input : list K) (tr : log E) (pf : nizk E),
  instance_new parse digest_of nc nv ni A B C = Ok I -> length input <> ni -> nizk_verify H pf I input tr g = Panic.
Proof. exact @api_panic_inputs. Qed.
Print Assumptions C32_input_count_refuted.

(** ... if one commitment of an acceptable proof is replaced by bytes that encode no point, ... *)
Theorem C32_undecodable_point_refuted : forall (K : Fld) (G : Mod K) (E : Enc G) (H : log E -> K)
    (pf : nizk E) (I : instance K (list nat)) (input : list K) (tr : log E) (g : r1csgens G) (tr' : log E) (c : E),
  nizk_verify H pf I input tr g = Ok tr' -> CommitModel.decompress E c = None -> nizk_verify H (with_comm_ry pf c) I input tr g = Panic.
Proof. exact @api_panic_undecodable. Qed.
Print Assumptions C32_undecodable_point_refuted.

(** ... and if the last scalar of the evaluation proof of an acceptable proof is changed *)
Theorem C32_wrong_scalar_refuted : forall (K : Fld) (G : Mod K) (E : Enc G) (H : log E -> K)
    (pf : nizk E) (I : instance K (list nat)) (input : list K) (tr : log E) (g : r1csgens G) (tr' : log E) (z : K),
  nizk_verify H pf I input tr g = Ok tr' -> gh (dg1 (rgpc g)) <> g0 -> z <> lp_z2 (rp_eval (nz_proof pf)) ->
  nizk_verify H (with_z2 pf z) I input tr g = Panic.
Proof. exact @api_panic_scalar. Qed.
Print Assumptions C32_wrong_scalar_refuted.

(** an accepted proof, broken in the four ways *)
Example C32_case : exists ii g pf tr', nz_unsat = Ok ii /\ nizk_verify (E:=exE) (fun _ => fp 5) pf ii [fp 3] [] g = Ok tr' /\
  CommitModel.decompress exE None = None /\ gh (dg1 (rgpc g)) <> g0 /\
  nizk_verify (fun _ => fp 5) (with_comm_ry pf None) ii [fp 3] [] g = Panic /\
  nizk_verify (fun _ => fp 5) (with_z2 pf (lp_z2 (rp_eval (nz_proof pf)) + 1)) ii [fp 3] [] g = Panic /\
  nizk_verify (fun _ => fp 5) pf ii [] [] g = Panic /\
  nizk_verify (fun _ => fp 5) (MkNizk (nz_proof pf) [] (nz_ry pf)) ii [fp 3] [] g = Panic.
Proof. exact case32. Qed.

(** two accepted runs that start in the same transcript state and end in the same state were about
    the same instance digest, the same public inputs and the same witness commitment *)
Theorem C33_absorbed : forall (K : Fld) (G : Mod K) (E : Enc G) (H : log E -> K)
    (pf pf' : nizk E) (I I' : instance K (list nat)) (input input' : list K) (tr : log E) (g g' : r1csgens G) (t : log E),
  nizk_verify H pf I input tr g = Ok t -> nizk_verify H pf' I' input' tr g' = Ok t ->
  idigest I = idigest I' /\ input = input' /\ rp_comm_vars (nz_proof pf) = rp_comm_vars (nz_proof pf').
Proof. exact @api_absorbed. Qed.
Print Assumptions C33_absorbed.

(** verifiers for the same sizes that end with the same transcript started with the same one and read
    the same digest, input and points: all commitments and first messages of the proof, in every
    round, except surplus points in [R] ([nizk_points] in BindSpec.v) *)
Theorem C33_all_messages_absorbed : forall (K : Fld) (G : Mod K) (E : Enc G) (H H' : log E -> K)
    (pf pf' : nizk E) (I I' : instance K (list nat)) (input input' : list K) (tr tr' : log E) (g g' : r1csgens G) (t : log E),
  rc_cons (inst I) = rc_cons (inst I') -> rc_vars (inst I) = rc_vars (inst I') ->
  nizk_verify H pf I input tr g = Ok t -> nizk_verify H' pf' I' input' tr' g' = Ok t ->
  tr = tr' /\ idigest I = idigest I' /\ input = input' /\ nizk_points pf = nizk_points pf'.
Proof. exact (fun K G E H H' pf pf' I I' input input' tr tr' g g' t => @nizk_inj K G E H H' pf pf' I I' input input' tr tr' g g' t). Qed.
Print Assumptions C33_all_messages_absorbed.

(** the prover's final transcript is the verifier's *)
Theorem C33_same_transcript : forall (K : Fld) (G : Mod K) (E : Enc G) (H : log E -> K), (of_nat 2 : K) <> 0 -> (of_nat 3 : K) <> 0 ->
  forall (bytes : Type) (parse : bytes -> option K) (digest_of : r1cs K -> list nat)
    (nc nv ni : nat) (A B C : list (nat * nat * bytes)) (I : instance K (list nat)) (stream : nat -> G) (g : r1csgens G)
    (vars input : list K) (seed : K) (tr : log E) (pf : nizk E) (trp trv : log E),
  (1 <= nc)%nat -> instance_new parse digest_of nc nv ni A B C = Ok I -> instance_is_sat I vars input = Ok true ->
  nizkgens_new nv ni stream = Ok g ->
  (let b := Nat.log2_up (next_pow2 (Nat.max nv (ni + 1))) in b - b / 2 < 32)%nat ->
  nizk_prove H I vars input g seed tr = Ok (pf, trp) -> nizk_verify H pf I input tr g = Ok trv -> trp = trv.
Proof. exact @api_same_transcript. Qed.
Print Assumptions C33_same_transcript.
