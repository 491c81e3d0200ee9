(** Properties C62, C63 and C64: the SNARK, which verifies against a commitment to the instance.
    [unless H l v k P] (CommitSpec.v) says that [P] holds unless the challenge drawn at one of
    [k] particular transcript states is [v].  [most_entries] and [snark_size] are in SnarkSpec.v,
    [half_up] and [openings] in SparSpec.v, [snark_messages], [hl_ops] and [same_up_to_zeros] in
    SnarkBindSpec.v. *)
From Coq Require Import String List Arith ZArith Bool Lia.
From Verif Require Import Base Field Zq Vec MathModel PolyModel PolySpec R1csModel R1csSpec R1csApi CommitModel SigmaModel CommitSpec SigmaApi SumModel SumApi NizkModel NizkSpec NizkApi SparModel SparSpec SnarkModel SnarkSpec SnarkApi SnarkBindSpec SnarkBind ExSmall.
Import ListNotations.
Local Open Scope fld_scope.

(** C62.  Parameters made for the number of entries that are kept commit to every instance; the
    commitment carries the instance's padded sizes. *)
Theorem C62_setup : forall (K : Fld) (G : Mod K) (E : Enc G) (H : log E -> K)
    (bytes : Type) (parse : bytes -> option K) (digest_of : r1cs K -> list nat)
    (nc nv ni nz : nat) (A B C : list (nat * nat * bytes)) (I : instance K (list nat)) (s1 s2 : nat -> G),
  (1 <= nc)%nat -> instance_new parse digest_of nc nv ni A B C = Ok I -> next_pow2 nz = next_pow2 (most_entries nc A B C) ->
  exists g comm d, snarkgens_new nc nv ni nz s1 s2 = Ok g /\ snark_encode H I g = Ok (comm, d) /\
    cm_cons comm = rc_cons (inst I) /\ cm_vars comm = rc_vars (inst I) /\ cm_inputs comm = ni.
Proof. exact @api_snark_setup. Qed.
Print Assumptions C62_setup.

(** Every proof the prover returns for a satisfying assignment is accepted against the
    commitment, with the verifier's transcript ending where the prover's did; and it returns one
    unless one of the challenges it must invert is zero. *)
Theorem C62_completeness : forall (K : Fld) (G : Mod K) (E : Enc G) (H : log E -> K), (of_nat 2 : K) <> 0 -> (of_nat 3 : K) <> 0 ->
  forall (bytes : Type) (parse : bytes -> option K) (digest_of : r1cs K -> list nat)
    (nc nv ni nz : nat) (A B C : list (nat * nat * bytes)) (I : instance K (list nat)) (s1 s2 : nat -> G) (g : snarkgens) (comm : rcomm) (d : mdense)
    (vars input : list K) (seed : K) (tr : log E),
  let b := Nat.log2_up (next_pow2 (Nat.max nv (ni + 1))) in
  snark_size nc b A B C nz -> instance_new parse digest_of nc nv ni A B C = Ok I -> instance_is_sat I vars input = Ok true ->
  snarkgens_new nc nv ni nz s1 s2 = Ok g -> snark_encode H I g = Ok (comm, d) ->
  (forall pf tr', snark_prove H I comm d vars input g seed tr = Ok (pf, tr') -> snark_verify H pf comm input tr g = Ok tr') /\
  unless H "u" 0 (half_up b + openings (Nat.log2_up nz) (Nat.max (Nat.log2_up nc) (S b))) (exists r, snark_prove H I comm d vars input g seed tr = Ok r).
Proof. exact @api_snark_complete. Qed.
Print Assumptions C62_completeness.

(** Parameters made for another number of entries are useless: whatever they commit to, no proof
    comes out.  The number that counts is the number of entries kept, not the number given. *)
Theorem C62_entry_count : forall (K : Fld) (G : Mod K) (E : Enc G) (H : log E -> K), (of_nat 2 : K) <> 0 -> (of_nat 3 : K) <> 0 ->
  forall (bytes : Type) (parse : bytes -> option K) (digest_of : r1cs K -> list nat)
    (nc nv ni nz : nat) (A B C : list (nat * nat * bytes)) (I : instance K (list nat)) (s1 s2 : nat -> G) (g : snarkgens) (comm : rcomm) (d : mdense)
    (vars input : list K) (seed : K) (tr : log E),
  (1 <= nc)%nat -> instance_new parse digest_of nc nv ni A B C = Ok I -> instance_is_sat I vars input = Ok true ->
  snarkgens_new nc nv ni nz s1 s2 = Ok g -> next_pow2 nz <> next_pow2 (most_entries nc A B C) -> (Nat.log2_up (next_pow2 (Nat.max nv (ni + 1))) < 50)%nat ->
  snark_encode H I g = Ok (comm, d) -> forall r, snark_prove H I comm d vars input g seed tr <> Ok r.
Proof. exact @api_snark_count. Qed.
Print Assumptions C62_entry_count.

(** over a small field: x * x = y with private x and public y: each matrix has one entry, yet parameters for one
    entry cannot commit to the instance; with parameters for two the proof is accepted for the
    input 25 and rejected for 26 *)
Definition sn_run (nz : nat) (vars input input' : list Fs) : res unit :=
  do ii <- instance_new sparse_z (fun _ => [1; 2; 3]%nat) 1 1 1 nzA nzA nzC;
  do g <- snarkgens_new 1 1 1 nz sStream sStream;
  do c <- snark_encode (E:=sE) sH ii g; let '(comm, d) := c in
  do p <- snark_prove sH ii comm d vars input g (fs 17) [];
  let '(pf, tr) := p in do tr' <- snark_verify sH pf comm input' [] g; assert (Nat.eqb (length tr) (length tr')); Ok tt.
Example C62_case : snark_size 1 1 nzA nzA nzC 2 /\ sn_run 2 [fs 5] [fs 25] [fs 25] = Ok tt /\ sn_run 2 [fs 5] [fs 25] [fs 26] = Err InternalError.
Proof. split; [repeat split; cbn; lia|]. split; zqs. Qed.
Example C62_count_case : next_pow2 1 <> next_pow2 (most_entries 1 nzA nzA nzC) /\
  (do g <- snarkgens_new (G:=sG) 1 1 1 1 sStream sStream; Ok tt) = Ok tt /\ sn_run 1 [fs 5] [fs 25] [fs 25] = Panic.
Proof. split; [cbn; lia|]. split; zqs. Qed.

(** C63 as stated is false: for every instance, satisfiable or not, and every input there is a
    proof that is accepted against the honest commitment, unless one particular challenge is 1
    or one of the counted challenges is 0 *)
Theorem C63_soundness_refuted : forall (K : Fld) (G : Mod K) (E : Enc G) (H : log E -> K), (of_nat 2 : K) <> 0 -> (of_nat 3 : K) <> 0 ->
  forall (bytes : Type) (parse : bytes -> option K) (digest_of : r1cs K -> list nat)
    (nc nv ni nz : nat) (A B C : list (nat * nat * bytes)) (I : instance K (list nat)) (s1 s2 : nat -> G) (g : snarkgens) (comm : rcomm) (d : mdense)
    (input : list K) (tr : log E),
  let b := Nat.log2_up (next_pow2 (Nat.max nv (ni + 1))) in
  snark_size nc b A B C nz -> instance_new parse digest_of nc nv ni A B C = Ok I -> length input = ni ->
  snarkgens_new nc nv ni nz s1 s2 = Ok g -> snark_encode H I g = Ok (comm, d) ->
  unless H "challenge_nextround" 1 1 (unless H "u" 0 (half_up b + openings (Nat.log2_up nz) (Nat.max (Nat.log2_up nc) (S b)))
    (exists pf tr', snark_verify H pf comm input tr g = Ok tr')).
Proof. exact @api_snark_forged. Qed.
Print Assumptions C63_soundness_refuted.

(** a number of public inputs other than the committed one aborts the verifier *)
Theorem C63_input_count_refuted : forall (K : Fld) (G : Mod K) (E : Enc G) (H : log E -> K) (pf : snark) (comm : rcomm) (input : list K) (tr : log E) (g : snarkgens),
  length input <> cm_inputs comm -> snark_verify H pf comm input tr g = Panic.
Proof. exact @api_snark_inputs. Qed.
Print Assumptions C63_input_count_refuted.

(** the system 1 * 1 = 0, and a challenge function under which no condition arises *)
Example C63_case : exists ii, nz_unsat = Ok ii /\ (forall vars input, instance_is_sat ii vars input <> Ok true) /\
  let H := fun _ : log exE => fp 5 in
  exists g comm d, snarkgens_new 1 1 1 2 exStream exStream = Ok g /\ snark_encode H ii g = Ok (comm, d) /\
    (forall y, exists pf tr', snark_verify H pf comm [y] [] g = Ok tr') /\ (forall pf, snark_verify H pf comm [] [] g = Panic).
Proof.
  destruct case31 as (ii & _ & Ei & _ & Un & _). exists ii. split; [exact Ei|]. split; [exact Un|]. intro H.
  destruct (api_snark_setup H Z zparse (fun _ => [1; 2; 3]%nat) 1 1 1 2 nzK nzK [] ii exStream exStream ltac:(lia) Ei eq_refl) as (g & comm & d & Eg & Ec & _ & _ & E3).
  exists g, comm, d. split; [exact Eg|]. split; [exact Ec|]. split.
  - intro y. destruct two_three_fp as [T2 T3].
    assert (SZ : snark_size 1 1 nzK nzK [] 2) by (repeat split; cbn; lia).
    pose proof (api_snark_forged H T2 T3 Z zparse (fun _ => [1; 2; 3]%nat) 1 1 1 2 nzK nzK [] ii exStream exStream g comm d [y] [] SZ Ei eq_refl Eg Ec) as U.
    apply unless_const in U; [|exact (proj2 fp5)]. apply unless_const in U; [exact U|exact (proj1 fp5)].
  - intro pf. apply api_snark_inputs. rewrite E3. discriminate.
Qed.

(** C64.  Two runs of the verifier with the same parameters that start and end with the same
    transcript read the same commitment, sizes included, the same input and the same messages:
    all that is sent before a challenge, except that the opened values of the operations are
    absorbed as one list filled up with zeros. *)
Theorem C64_commitment_absorbed : forall (K : Fld) (G : Mod K) (E : Enc G) (H H' : log E -> K) (pf pf' : snark) (comm comm' : rcomm) (input input' : list K)
    (tr : log E) (g : snarkgens) (t : log E),
  snark_verify H pf comm input tr g = Ok t -> snark_verify H' pf' comm' input' tr g = Ok t ->
  comm = comm' /\ input = input' /\ snark_messages pf = snark_messages pf' /\
  same_up_to_zeros (hl_ops (np_hash (sp_net (sn_evalproof pf)))) (hl_ops (np_hash (sp_net (sn_evalproof pf')))).
Proof. exact @api_snark_bound. Qed.
Print Assumptions C64_commitment_absorbed.
(** For commitments of the same sizes the final transcript determines the first one as well. *)
Theorem C64_all_messages_absorbed : forall (K : Fld) (G : Mod K) (E : Enc G) (H H' : log E -> K) (pf pf' : snark) (comm comm' : rcomm) (input input' : list K)
    (tr tr' : log E) (g : snarkgens) (t : log E),
  cm_cons comm = cm_cons comm' -> cm_vars comm = cm_vars comm' -> sc_nops (cm_comm comm) = sc_nops (cm_comm comm') -> sc_cells (cm_comm comm) = sc_cells (cm_comm comm') ->
  snark_verify H pf comm input tr g = Ok t -> snark_verify H' pf' comm' input' tr' g = Ok t ->
  tr = tr' /\ comm = comm' /\ input = input' /\ snark_messages pf = snark_messages pf' /\
  same_up_to_zeros (hl_ops (np_hash (sp_net (sn_evalproof pf)))) (hl_ops (np_hash (sp_net (sn_evalproof pf')))).
Proof. exact @snark_inj. Qed.
Print Assumptions C64_all_messages_absorbed.
(** proofs for 5 * 5 = 25 and 3 * 3 = 9 under the same parameters: both are accepted, from the
    same start, and the transcripts are of the same length but differ *)
Example C64_case :
  (do ii <- instance_new sparse_z (fun _ => [1; 2; 3]%nat) 1 1 1 nzA nzA nzC;
   do g <- snarkgens_new 1 1 1 2 sStream sStream;
   do c <- snark_encode (E:=sE) sH ii g; let '(comm, d) := c in
   do p <- snark_prove sH ii comm d [fs 5] [fs 25] g (fs 17) []; let '(pf, _) := p in do t <- snark_verify sH pf comm [fs 25] [] g;
   do p <- snark_prove sH ii comm d [fs 3] [fs 9] g (fs 17) []; let '(pf', _) := p in do t' <- snark_verify sH pf' comm [fs 9] [] g;
   let scalars := flat_map (fun m : msg sE => match m with MScalar _ x => [zval x] | _ => [] end) in
   Ok (Nat.eqb (length t) (length t'), if list_eq_dec Z.eq_dec (scalars t) (scalars t') then true else false)) = Ok (true, false).
Proof. vm_compute. reflexivity. Qed.
