(** C71: proofs show nothing but the truth of the claim.

    For a fixed challenge there is a simulator: a function of the public claim, the challenge and
    fresh random numbers only.  For every witness the honest prover's proof is the simulator's
    output on a permutation of the random numbers the prover drew.  So when these are uniform, the
    proof and the simulator's output are equally distributed, whatever the witness.
    [drawn], [replies], [permutes] and [nizk_requests], the random numbers a whole proof asks for,
    are in ZkSpec.v. *)
From Coq Require Import String List Arith Bool ZArith Field.
From Verif Require Import Base ListAux Field Vec MathModel PolyModel R1csModel R1csApi CommitModel SigmaModel CommitSpec NizkModel NizkApi AgmSpec SparModel SnarkModel SnarkSpec Zq ExSmall ZkSpec ZkProofs ZkLog ZkApi ZkCount.
Import ListNotations.
Add Field Kzx : (fth Fs).
Local Open Scope fld_scope.

(** knowledge of an opening *)
Theorem C71_knowledge : forall (K : Fld) (G : Mod K) (E : Enc G) (g : gens G), gens_ok g -> gn g = 1%nat ->
  exists sim : E -> K -> list K -> kproof E,
  forall (x r c : K), exists pad, permutes 2 pad /\
  forall H tr tape pf C tr' tape', kp_prove H g tr tape x r = Ok (pf, C, tr', tape') ->
    replies H tr' = replies H tr ++ [c] ->
    pf = sim C c (pad (drawn H ["t1"; "t2"]%string tape)).
Proof. exact @kp_zk. Qed.
Print Assumptions C71_knowledge.

(** two commitments hide the same value *)
Theorem C71_equality : forall (K : Fld) (G : Mod K) (E : Enc G) (g : gens G), gens_ok g -> gn g = 1%nat ->
  exists sim : E -> E -> K -> list K -> eproof E,
  forall (v s1 s2 c : K), exists pad, permutes 1 pad /\
  forall H tr tape pf C1 C2 tr' tape', ep_prove H g tr tape v s1 v s2 = Ok (pf, C1, C2, tr', tape') ->
    replies H tr' = replies H tr ++ [c] ->
    pf = sim C1 C2 c (pad (drawn H ["r"]%string tape)).
Proof. exact @ep_zk. Qed.
Print Assumptions C71_equality.

(** a commitment hides the product of two others *)
Theorem C71_product : forall (K : Fld) (G : Mod K) (E : Enc G) (g : gens G), gens_ok g -> gn g = 1%nat ->
  exists sim : E -> E -> E -> K -> list K -> pproof E,
  forall (x rX y rY rZ c : K), exists pad, permutes 5 pad /\
  forall H tr tape pf X Y Z tr' tape', pp_prove H g tr tape x rX y rY (x * y) rZ = Ok (pf, X, Y, Z, tr', tape') ->
    replies H tr' = replies H tr ++ [c] ->
    pf = sim X Y Z c (pad (drawn H ["b1"; "b2"; "b3"; "b4"; "b5"]%string tape)).
Proof. exact @pp_zk. Qed.
Print Assumptions C71_product.

(** a commitment hides the product of a hidden vector with a public one *)
Theorem C71_dot_product : forall (K : Fld) (G : Mod K) (E : Enc G) (g1 gN : gens G) (a : list K), gens_ok g1 -> gn g1 = 1%nat -> gens_ok gN ->
  exists sim : E -> E -> K -> list K -> dproof E,
  forall (x : list K) (bx by_ c : K), exists pad, permutes (length x + 2) pad /\
  forall H tr tape pf Cx Cy tr' tape', dp_prove H g1 gN tr tape x bx a (dot x a) by_ = Ok (pf, Cx, Cy, tr', tape') ->
    replies H tr' = replies H tr ++ [c] ->
    pf = sim Cx Cy c (pad (drawn H (repeat "d_vec"%string (length x) ++ ["r_delta"; "r_beta"]%string) tape)).
Proof. exact @dp_zk. Qed.
Print Assumptions C71_dot_product.

(** the same with the logarithmic-size proof: the points sent in the halvings and the final
    responses are those of the simulator.  [dl] says that the blinding generator generates the
    group, as every point but the identity does in a group of prime order; the simulator does not
    use it *)
Theorem C71_log_dot_product : forall (K : Fld) (G : Mod K) (E : Enc G) (stream : nat -> G) (g : dgens G) (k : nat) (a : list K) (dl : G -> K),
  (k < 32)%nat -> length a = (2 ^ k)%nat -> dgens_new (2 ^ k) stream = Ok g -> (forall P, gmul (dl P) (gh (dgN g)) = P) ->
  exists sim : E -> E -> K -> list K -> K -> list K -> lproof E,
  forall (x : list K) (bx by_ r : K) (us : list K) (c : K), length x = (2 ^ k)%nat -> length us = k -> exists pad, permutes (3 + 4 * k) pad /\
  forall H tr tape pf Cx Cy tr' tape', lp_prove H g tr tape x bx a (dot x a) by_ = Ok (pf, Cx, Cy, tr', tape') ->
    replies H tr' = replies H tr ++ r :: us ++ [c] ->
    pf = sim Cx Cy r us c (pad (drawn H (["d"; "r_delta"; "r_delta"]%string ++ repeat "blinds_vec_1"%string (2 * k) ++ repeat "blinds_vec_2"%string (2 * k)) tape)).
Proof. exact @lp_zk. Qed.
Print Assumptions C71_log_dot_product.

(** the whole proof of satisfiability: the simulator knows the instance, the public inputs and the
    generators but no witness.  [dl] says that each of the three blinding generators generates the
    group; the simulator does not use it *)
Theorem C71_nizk : forall (K : Fld) (G : Mod K) (E : Enc G) (bytes : Type) (parse : bytes -> option K) (digest_of : r1cs K -> list nat),
  (of_nat 2 : K) <> 0 -> (of_nat 3 : K) <> 0 ->
  forall (nc nv ni : nat) (A B C : list (nat * nat * bytes)) (I : instance K (list nat)) (stream : nat -> G) (g : r1csgens G) (input : list K) (dl : gens G -> G -> K),
  (1 <= nc)%nat -> instance_new parse digest_of nc nv ni A B C = Ok I -> nizkgens_new nv ni stream = Ok g ->
  (forall gs, In gs [rg1 g; rg3 g; rg4 g] -> forall P, gmul (dl gs P) (gh gs) = P) ->
  let a := Nat.log2_up (pad_cons nc) in let b := Nat.log2_up (pad_vars nv ni) in let k := (b - b / 2)%nat in
  let asks := concat (nizk_requests a b) in
  (k < 32)%nat ->
  exists sim : list K -> list K -> nizk E,
  forall (vars cs : list K), instance_is_sat I vars input = Ok true -> length cs = nizk_coins a b k ->
  exists pad, permutes (length asks) pad /\
  forall H seed tr pf tr', nizk_prove H I vars input g seed tr = Ok (pf, tr') -> replies H tr' = replies H tr ++ cs ->
    pf = sim cs (pad (drawn H asks (tape_new "proof" seed))).
Proof. exact @api_nizk_zk. Qed.
Print Assumptions C71_nizk.

(** so the proofs from two witnesses are equally distributed: the same challenges and random
    numbers that correspond under a permutation give the same proof *)
Theorem C71_two_witnesses : forall (K : Fld) (G : Mod K) (E : Enc G) (bytes : Type) (parse : bytes -> option K) (digest_of : r1cs K -> list nat),
  (of_nat 2 : K) <> 0 -> (of_nat 3 : K) <> 0 ->
  forall (nc nv ni : nat) (A B C : list (nat * nat * bytes)) (I : instance K (list nat)) (stream : nat -> G) (g : r1csgens G) (input : list K) (dl : gens G -> G -> K),
  (1 <= nc)%nat -> instance_new parse digest_of nc nv ni A B C = Ok I -> nizkgens_new nv ni stream = Ok g ->
  (forall gs, In gs [rg1 g; rg3 g; rg4 g] -> forall P, gmul (dl gs P) (gh gs) = P) ->
  let a := Nat.log2_up (pad_cons nc) in let b := Nat.log2_up (pad_vars nv ni) in let k := (b - b / 2)%nat in
  let asks := concat (nizk_requests a b) in
  (k < 32)%nat ->
  forall (vars vars' cs : list K), instance_is_sat I vars input = Ok true -> instance_is_sat I vars' input = Ok true -> length cs = nizk_coins a b k ->
  exists swap, permutes (length asks) swap /\
  forall (H H' : log E -> K) seed seed' tr pf tr1 pf' tr1',
    nizk_prove H I vars input g seed tr = Ok (pf, tr1) -> nizk_prove H' I vars' input g seed' tr = Ok (pf', tr1') ->
    replies H tr1 = replies H tr ++ cs -> replies H' tr1' = replies H' tr ++ cs ->
    drawn H' asks (tape_new "proof" seed') = swap (drawn H asks (tape_new "proof" seed)) -> pf = pf'.
Proof. exact @api_nizk_wi. Qed.
Print Assumptions C71_two_witnesses.

(** in numbers: the proof is a function of the random numbers drawn, and for every test a proof may
    be put to, as many choices of these pass it with one witness as with the other.  [Q] lists the
    scalars *)
Theorem C71_equal_counts : forall (K : Fld) (G : Mod K) (E : Enc G) (bytes : Type) (parse : bytes -> option K) (digest_of : r1cs K -> list nat),
  (of_nat 2 : K) <> 0 -> (of_nat 3 : K) <> 0 ->
  forall (nc nv ni : nat) (A B C : list (nat * nat * bytes)) (I : instance K (list nat)) (stream : nat -> G) (g : r1csgens G) (input : list K) (dl : gens G -> G -> K),
  (1 <= nc)%nat -> instance_new parse digest_of nc nv ni A B C = Ok I -> nizkgens_new nv ni stream = Ok g ->
  (forall gs, In gs [rg1 g; rg3 g; rg4 g] -> forall P, gmul (dl gs P) (gh gs) = P) ->
  let a := Nat.log2_up (pad_cons nc) in let b := Nat.log2_up (pad_vars nv ni) in let k := (b - b / 2)%nat in
  let asks := concat (nizk_requests a b) in
  (k < 32)%nat ->
  forall (vars vars' cs Q : list K), instance_is_sat I vars input = Ok true -> instance_is_sat I vars' input = Ok true -> length cs = nizk_coins a b k ->
  NoDup Q -> (forall x, In x Q) ->
  exists out out' : list K -> nizk E,
  (forall H seed tr pf tr', nizk_prove H I vars input g seed tr = Ok (pf, tr') -> replies H tr' = replies H tr ++ cs -> pf = out (drawn H asks (tape_new "proof" seed))) /\
  (forall H seed tr pf tr', nizk_prove H I vars' input g seed tr = Ok (pf, tr') -> replies H tr' = replies H tr ++ cs -> pf = out' (drawn H asks (tape_new "proof" seed))) /\
  forall T : nizk E -> bool,
    length (filter (fun l => T (out l)) (lists_over Q (length asks))) = length (filter (fun l => T (out' l)) (lists_over Q (length asks))).
Proof. exact @api_nizk_counts. Qed.
Print Assumptions C71_equal_counts.

(** the proof with a computation commitment: its proof of satisfiability and the two points are
    the simulator's, and the rest is computed without the witness, from the matrices, these points,
    the verifier's transcript and random numbers drawn later *)
Theorem C71_snark : forall (K : Fld) (G : Mod K) (E : Enc G) (bytes : Type) (parse : bytes -> option K) (digest_of : r1cs K -> list nat),
  (of_nat 2 : K) <> 0 -> (of_nat 3 : K) <> 0 ->
  forall (nc nv ni nz : nat) (A B C : list (nat * nat * bytes)) (I : instance K (list nat)) (s1 s2 : nat -> G) (g : @snarkgens K G) (input : list K) (dl : gens G -> G -> K),
  let a := Nat.log2_up (pad_cons nc) in let b := Nat.log2_up (pad_vars nv ni) in
  snark_size nc b A B C nz -> instance_new parse digest_of nc nv ni A B C = Ok I -> snarkgens_new nc nv ni nz s1 s2 = Ok g ->
  (forall gs, In gs [rg1 (sn_sat g); rg3 (sn_sat g); rg4 (sn_sat g)] -> forall P, gmul (dl gs P) (gh gs) = P) -> length input = ni ->
  let asks := concat (nizk_requests a b) in
  exists sim : list K -> list K -> r1csproof E * list K * list K,
  forall (vars cs : list K), instance_is_sat I vars input = Ok true -> length cs = nizk_coins a b (b - b / 2) ->
  exists pad, permutes (length asks) pad /\
  forall H comm d seed tr pf tr', snark_encode H I g = Ok (comm, d) -> snark_prove H I comm d vars input g seed tr = Ok (pf, tr') ->
    firstn (length cs) (skipn (length (replies H tr)) (replies H tr')) = cs ->
    let '(p, rx, ry) := sim cs (pad (drawn H asks (tape_new "proof" seed))) in
    sn_proof pf = p /\
    exists eA eB eC t tape', r1cs_evaluate (inst I) rx ry = Ok (eA, eB, eC) /\ sn_evals pf = (eA, eB, eC) /\
    r1cs_verify H p (rc_vars (inst I)) (rc_cons (inst I)) input (eA, eB, eC) (app_rcomm comm (proto "Spartan SNARK proof" tr)) (sn_sat g) = Ok (rx, ry, t) /\
    spar_prove H d rx ry [eA; eB; eC] (sn_eval g) (app_scalar "Cr_claim" eC (app_scalar "Br_claim" eB (app_scalar "Ar_claim" eA t)))
      (rev (map MChal asks) ++ tape_new "proof" seed) = Ok (sn_evalproof pf, tr', tape').
Proof. exact @api_snark_zk. Qed.
Print Assumptions C71_snark.

(** runs that meet the hypotheses: the provers succeed, the transcript holds exactly the challenges
    named, and the blinding generator generates the group *)
Definition zG1 : gens sG := MkGens 1 [fs 3 : sG] (fs 5 : sG).
Definition zG2 : gens sG := MkGens 2 [fs 3 : sG; fs 11 : sG] (fs 5 : sG).
Example C71_case :
  let rep (t : log sE) := map (@zval 65537) (replies sH t) in
  (match kp_prove (E:=sE) sH zG1 [] [] (fs 7) (fs 9) with Ok (_, _, t, _) => rep t = [5%Z] | _ => False end) /\
  (match ep_prove (E:=sE) sH zG1 [] [] (fs 7) (fs 9) (fs 7) (fs 2) with Ok (_, _, _, t, _) => rep t = [6%Z] | _ => False end) /\
  (match pp_prove (E:=sE) sH zG1 [] [] (fs 7) (fs 9) (fs 6) (fs 2) (fs 7 * fs 6) (fs 4) with Ok (_, _, _, _, t, _) => rep t = [9%Z] | _ => False end) /\
  (match dp_prove (E:=sE) sH zG1 zG2 [] [] [fs 7; fs 8] (fs 9) [fs 2; fs 6] (dot [fs 7; fs 8] [fs 2; fs 6]) (fs 4) with Ok (_, _, _, t, _) => rep t = [11%Z] | _ => False end).
Proof. vm_compute. repeat split. Qed.
Example C71_log_case :
  exists (g : dgens sG) (dl : sG -> Fs), dgens_new 2 sStream = Ok g /\ (forall P : sG, gmul (dl P) (gh (dgN g)) = P) /\
  match lp_prove (E:=sE) sH g [] [] [fs 7; fs 8] (fs 9) [fs 2; fs 6] (dot [fs 7; fs 8] [fs 2; fs 6]) (fs 4) with
  | Ok (_, _, _, t, _) => map (@zval 65537) (replies sH t) = [9; 12; 15]%Z
  | _ => False end.
Proof.
  eexists. exists (fun P => P * finv (fs 9)). split; [reflexivity|]. split.
  - intro P. change (P * finv (fs 9) * fs 9 = P). assert (N : fs 9 <> 0) by (intro X; apply (f_equal (@zval 65537)) in X; vm_compute in X; discriminate X).
    transitivity (P * (finv (fs 9) * fs 9)); [ring|]. rewrite (finv_l Fs) by exact N. ring.
  - vm_compute. reflexivity.
Qed.
(** x * x = 25 has the witnesses 5 and -5; the prover succeeds with both, and its transcript and its
    tape hold as many challenges and random numbers as the theorems name *)
Example C71_nizk_case :
  (of_nat 2 : Fs) <> 0 /\ (of_nat 3 : Fs) <> 0 /\
  exists I g, instance_new sparse_z (fun _ => [1; 2; 3]%nat) 1 1 1 nzA nzA nzC = Ok I /\ nizkgens_new 1 1 sStream = Ok g /\
  (exists dl : gens sG -> sG -> Fs, forall gs, In gs [rg1 g; rg3 g; rg4 g] -> forall P, gmul (dl gs P) (gh gs) = P) /\
  instance_is_sat I [fs 5] [fs 25] = Ok true /\ instance_is_sat I [fs 65532] [fs 25] = Ok true /\
  forall w, In w [fs 5; fs 65532] ->
  match nizk_prove (E:=sE) sH I [w] [fs 25] g (fs 17) [] with
  | Ok (_, t) => length (replies sH t) = nizk_coins 1 1 1
  | _ => False end.
Proof.
  assert (N : forall z, (0 < z < 65537)%Z -> fs z <> 0).
  { intros z [L U] X. apply (f_equal (@zval 65537)) in X. change (z mod 65537 = 0)%Z in X. rewrite Z.mod_small in X by (split; [apply Z.lt_le_incl, L|exact U]). subst z. discriminate L. }
  split; [intro X; apply (f_equal (@zval 65537)) in X; vm_compute in X; discriminate X|]. split; [intro X; apply (f_equal (@zval 65537)) in X; vm_compute in X; discriminate X|].
  eexists. eexists. split; [reflexivity|]. split; [reflexivity|]. split.
  - exists (fun (gs : gens sG) (P : sG) => (P : Fs) * finv (gh gs : Fs)). intros gs Hgs P. set (h := gh gs : Fs). change (gmul (P * finv h) (gh gs)) with ((P : Fs) * finv h * h). assert (Q : h <> 0).
    { unfold h. destruct Hgs as [<-|[<-|[<-|[]]]]; [apply (N 9%Z)|apply (N 9%Z)|apply (N 11%Z)]; split; reflexivity. }
    change (@eq Fs ((P : Fs) * finv h * h) P). transitivity ((P : Fs) * (finv h * h)); [ring|]. rewrite (finv_l Fs) by exact Q. ring.
  - split; [vm_compute; reflexivity|]. split; [vm_compute; reflexivity|]. intros w [<-|[<-|[]]]; vm_compute; reflexivity.
Qed.
(** the scalars of the field of these examples can be listed, each once *)
Example C71_counts_case : exists Q : list Fs, NoDup Q /\ forall x, In x Q.
Proof. exists all_fs. exact all_fs_ok. Qed.
Example C71_snark_case : snark_size 1 (Nat.log2_up (pad_vars 1 1)) nzA nzA nzC 2 /\
  (do ii <- instance_new sparse_z (fun _ => [1; 2; 3]%nat) 1 1 1 nzA nzA nzC;
   do g <- snarkgens_new 1 1 1 2 sStream sStream; do c <- snark_encode (E:=sE) sH ii g; let '(comm, d) := c in
   do p <- snark_prove sH ii comm d [fs 5] [fs 25] g (fs 17) []; let '(_, t) := p in
   Ok (map (fun gs : gens sG => @zval 65537 (gh gs)) [rg1 (sn_sat g); rg3 (sn_sat g); rg4 (sn_sat g)], Nat.leb (nizk_coins 1 1 1) (length (replies sH t)))) = Ok ([9; 9; 11]%Z, true).
Proof. split; [repeat split; cbn; auto with arith|]. vm_compute. reflexivity. Qed.
