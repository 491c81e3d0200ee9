(** Properties C49, C57, C58 and C59: the membership prover and verifier and the
    TypeScript Poseidon (WasmModel.v; vocabulary in WasmSpec.v and TsSpec.v). *)
From Coq Require Import String ZArith List Bool Lia.
From Verif Require Import Base Primes Field Zq Limb R1csModel R1csSpec CommitModel CommitSpec SigmaModel SigmaApi SumModel NizkModel PosModel PosSpec PosApi Secp TsModel TsSpec TsProofs ReadModel ReadSpec ReadApi BinModel BinSpec WasmModel WasmSpec WasmProofs WasmApi WasmEx.
Import ListNotations.
Local Open Scope Z_scope.

(** ** C49 *)
(** the verifier answers true exactly when the public input decodes, its T and U are those
    of its signature part, and the proof is valid for its circuit part *)
Theorem C49_true : forall (G : Mod Fp) (E : Enc G) H tr0 stream word (pp : list Z -> option E) circuit proof b, is_bytes b ->
  (membership_verify H tr0 stream word pp circuit proof b = Ok true <->
   exists x, pi_deserialize b = Ok x /\ eff_of x /\ wasm_verify H tr0 stream word pp circuit proof (cpi_wire (pi_circuit x)) = Ok true).
Proof. exact @verify_true. Qed.
Print Assumptions C49_true.

(** what the wasm part accepts *)
Theorem C49_wasm : forall (G : Mod Fp) (E : Enc G) H tr0 stream word (pp : list Z -> option E) circuit proof c I,
  dec_instance word circuit = Ok I -> rc_inputs (inst I) = 5%nat ->
  (wasm_verify H tr0 stream word pp circuit proof (cpi_wire c) = Ok true <->
   reversible [cp_root c; cp_Tx c; cp_Ty c; cp_Ux c; cp_Uy c] /\
   exists pf g tr, dec_nizk word pp proof = Ok pf /\ nizkgens_new (rc_vars (inst I)) 5 stream = Ok g /\
     nizk_verify H pf I (map (fun v => fp (swap v)) [cp_root c; cp_Tx c; cp_Ty c; cp_Ux c; cp_Uy c]) tr0 g = Ok tr).
Proof. exact @wasm_true. Qed.
Print Assumptions C49_wasm.
(** it returns [false] exactly when the proof is readable and NIZK verification returns an
    error; it throws for a proof or inputs it cannot read and when NIZK verification panics *)
Theorem C49_wasm_rejects : forall (G : Mod Fp) (E : Enc G) H tr0 stream word (pp : list Z -> option E) circuit proof c I,
  dec_instance word circuit = Ok I -> rc_inputs (inst I) = 5%nat -> let l := [cp_root c; cp_Tx c; cp_Ty c; cp_Ux c; cp_Uy c] in
  (wasm_verify H tr0 stream word pp circuit proof (cpi_wire c) = Ok false <->
   reversible l /\ exists pf g e, dec_nizk word pp proof = Ok pf /\ nizkgens_new (rc_vars (inst I)) 5 stream = Ok g /\
     nizk_verify H pf I (map (fun v => fp (swap v)) l) tr0 g = Err e) /\
  (wasm_verify H tr0 stream word pp circuit proof (cpi_wire c) = Panic <->
   ~ reversible l \/ (forall pf, dec_nizk word pp proof <> Ok pf) \/
   exists pf g, dec_nizk word pp proof = Ok pf /\ nizkgens_new (rc_vars (inst I)) 5 stream = Ok g /\
     nizk_verify H pf I (map (fun v => fp (swap v)) l) tr0 g = Panic).
Proof. exact @wasm_false. Qed.
Print Assumptions C49_wasm_rejects.

(** it throws only on the public input, never on a proof *)
Theorem C49_throws : forall (G : Mod Fp) (E : Enc G) H tr0 stream word (pp : list Z -> option E) circuit proof b, is_bytes b ->
  (membership_verify H tr0 stream word pp circuit proof b = Panic <->
   pi_deserialize b = Panic \/ exists x, pi_deserialize b = Ok x /\ verifyEff x = Panic).
Proof. exact @verify_throws. Qed.
Print Assumptions C49_throws.

Theorem C49_total : forall (G : Mod Fp) (E : Enc G) H tr0 stream word (pp : list Z -> option E) circuit proof b, is_bytes b ->
  membership_verify H tr0 stream word pp circuit proof b = Panic \/ exists v, membership_verify H tr0 stream word pp circuit proof b = Ok v.
Proof. exact @verify_total. Qed.
Print Assumptions C49_total.

(** a consistent public input, a proof that does not decode, and a string that is no public input *)
Example C49_case : is_bytes (pi_wire exX) /\ pi_deserialize (pi_wire exX) = Ok exX /\ eff_of exX /\
  membership_verify exH [] exStream (2 ^ 32) exPP exCircuitFile [1; 2; 3] (pi_wire exX) = Ok false /\
  membership_verify exH [] exStream (2 ^ 32) exPP exCircuitFile [1; 2; 3] [] = Panic.
Proof.
  destruct ex_usable as (He & Fx & Bm & _). assert (Bx : is_bytes (pi_wire exX)) by (apply (pi_serialize_bytes exX); [exact Bm|apply pi_serialize_ok; exact Fx]).
  split; [exact Bx|]. split; [apply pi_roundtrip; exact Fx|]. split; [exact He|]. split.
  - destruct (circuit_decodes (G:=exG) (E:=exE) (2 ^ 32) exPB exPP exDigest exCircuit exCircuitFile ex_environment ex_circuit_file) as (I & Hi & _).
    assert (D : dec_nizk (G:=exG) (E:=exE) (2 ^ 32) exPP [1; 2; 3] = Err OtherErr) by reflexivity.
    exact (verify_reject exH [] exStream (2 ^ 32) exPP exCircuitFile [1; 2; 3] exX I OtherErr ex_usable Hi D).
  - reflexivity.
Qed.

(** ** C57 *)
(** [hash] of two field elements is the Poseidon function of the circuits, and anything
    else throws *)
Theorem C57_hash : forall x y, 0 <= x < 2 ^ 256 -> 0 <= y < 2 ^ 256 ->
  poseidon_hash [x; y] = if (x <? p) && (y <? p) then Ok (zval (pos2 (fp x) (fp y))) else Panic.
Proof. exact hash_two. Qed.
Print Assumptions C57_hash.

Theorem C57_two_inputs : forall l, Forall (fun x => 0 <= x < 2 ^ 256) l -> length l <> 2%nat -> poseidon_hash l = Panic.
Proof. exact hash_count. Qed.
Print Assumptions C57_two_inputs.

(** [hashPubKey] hashes the coordinates of a key of 64 bytes and does not look at what follows *)
Theorem C57_pubkey : forall x y tail, 0 <= x < 2 ^ 256 -> 0 <= y < 2 ^ 256 ->
  hashPubKey (be_string 32 x ++ be_string 32 y ++ tail) = poseidon_hash [x; y].
Proof. exact pubkey_hash. Qed.
Print Assumptions C57_pubkey.

Theorem C57_short_key : forall b, (length b <= 32)%nat -> hashPubKey b = Panic.
Proof. exact pubkey_short. Qed.
Print Assumptions C57_short_key.

(** an uncompressed SEC1 key, with its leading 04, is hashed shifted by one byte *)
Theorem C57_sec1_key_refuted : forall x y, 0 <= x < 2 ^ 256 -> 0 <= y < 2 ^ 256 ->
  hashPubKey (4 :: be_string 32 x ++ be_string 32 y) = poseidon_hash [4 * 256 ^ 31 + x / 256; (x mod 256) * 256 ^ 31 + y / 256].
Proof. exact pubkey_uncompressed. Qed.
Print Assumptions C57_sec1_key_refuted.

Example C57_case : poseidon_hash [gx; gy] = Ok (zval (pos2 (fp gx) (fp gy))) /\ poseidon_hash [gx; p] = Panic /\ poseidon_hash [1] = Panic /\
  hashPubKey (be_string 32 gx ++ be_string 32 gy) = Ok (zval (pos2 (fp gx) (fp gy))).
Proof.
  assert (A : 0 <= gx < 2 ^ 256) by (split; [discriminate|reflexivity]). assert (B : 0 <= gy < 2 ^ 256) by (split; [discriminate|reflexivity]).
  assert (X : poseidon_hash [gx; gy] = Ok (zval (pos2 (fp gx) (fp gy)))) by (rewrite C57_hash by assumption; reflexivity).
  split; [exact X|]. split; [rewrite C57_hash by (assumption || (split; [discriminate|reflexivity])); reflexivity|].
  split; [apply C57_two_inputs; [repeat constructor; lia|discriminate]|]. rewrite <- (app_nil_r (be_string 32 gy)), C57_pubkey by assumption. exact X.
Qed.

(** ** C58 *)
(** with the circuit file of gen_spartan_inst, a witness file that satisfies the circuit and a
    usable public input, whatever the prover returns is accepted by the verifier, and it
    returns something unless the transcript derives the challenge 0 *)
Theorem C58_complete : forall (G : Mod Fp) (E : Enc G) H tr0 stream seed word (pb : E -> list Z) pp digest_of c circuit
    M (witness_gen : Z -> M -> Z * Z * Z * Z -> res (list Z)) r s v msgHash root merkleProof Tx Ty Ux Uy file,
  let x := MkPI r v msgHash (MkCPI root Tx Ty Ux Uy) in
  environment word pb pp digest_of -> circuit_file digest_of c circuit -> usable x ->
  witness_gen s merkleProof (Tx, Ty, Ux, Uy) = Ok file -> witness_file c file ->
  (forall proof x', membership_prove H tr0 stream seed word pb circuit witness_gen r s v msgHash root merkleProof = Ok (proof, x') ->
     x' = x /\ membership_verify H tr0 stream word pp circuit proof (pi_wire x) = Ok true) /\
  unless H "u" 0%fld (size_of (Z.to_nat (ci_wires c)) - size_of (Z.to_nat (ci_wires c)) / 2)
    (exists proof, membership_prove H tr0 stream seed word pb circuit witness_gen r s v msgHash root merkleProof = Ok (proof, x)).
Proof. exact @membership_complete. Qed.
Print Assumptions C58_complete.

(** public inputs with a component whose reversed bytes reach p can neither be proved nor verified *)
Theorem C58_byte_order_refuted : forall (G : Mod Fp) (E : Enc G) H tr0 stream seed word (pb : E -> list Z) pp digest_of c circuit x,
  environment word pb pp digest_of -> circuit_file digest_of c circuit -> pi_fits x -> is_bytes (pi_msgHash x) ->
  ~ reversible [cp_root (pi_circuit x); cp_Tx (pi_circuit x); cp_Ty (pi_circuit x); cp_Ux (pi_circuit x); cp_Uy (pi_circuit x)] ->
  (forall proof, membership_verify H tr0 stream word pp circuit proof (pi_wire x) <> Ok true) /\
  forall M (witness_gen : Z -> M -> Z * Z * Z * Z -> res (list Z)) r s v m root mp proof,
    membership_prove H tr0 stream seed word pb circuit witness_gen r s v m root mp <> Ok (proof, x).
Proof. exact @membership_blocked. Qed.
Print Assumptions C58_byte_order_refuted.

Example C58_case : environment (G:=exG) (E:=exE) (2 ^ 32) exPB exPP exDigest /\ circuit_file exDigest exCircuit exCircuitFile /\
  usable exX /\ witness_file exCircuit exWtns /\
  pi_fits (MkPI gx 27 exHash (MkCPI (2 ^ 224 - 1) 1 2 3 4)) /\ ~ reversible [2 ^ 224 - 1; 1; 2; 3; 4].
Proof.
  split; [exact ex_environment|]. split; [exact ex_circuit_file|]. split; [exact ex_usable|]. split; [exact ex_witness_file|].
  split. { unfold pi_fits, cpi_fits, u256. cbn [pi_r pi_rV pi_circuit cp_root cp_Tx cp_Ty cp_Ux cp_Uy]. repeat split; (discriminate || reflexivity || lia). }
  intro F. inversion F as [|? ? A _]; subst. vm_compute in A. discriminate.
Qed.

(** ** C59 *)
(** a membership proof shows nothing: from a file of zeros, and without a secret key, a
    Merkle proof or a signature, the prover makes an accepted proof for every circuit,
    every root and every message for which the public input is usable *)
Theorem C59_soundness_refuted : forall (G : Mod Fp) (E : Enc G) H tr0 stream seed word (pb : E -> list Z) pp digest_of c circuit prime
    r v msgHash root Tx Ty Ux Uy,
  let x := MkPI r v msgHash (MkCPI root Tx Ty Ux Uy) in
  let zeros (_ : Z) (_ : unit) (_ : Z * Z * Z * Z) := Ok (wtns_bytes 2 prime (32 * ci_wires c) (repeat 0 (Z.to_nat (ci_wires c)))) in
  environment word pb pp digest_of -> circuit_file digest_of c circuit -> usable x -> length prime = 32%nat -> is_bytes prime ->
  (forall proof x', membership_prove H tr0 stream seed word pb circuit zeros r 0 v msgHash root tt = Ok (proof, x') ->
     x' = x /\ membership_verify H tr0 stream word pp circuit proof (pi_wire x) = Ok true) /\
  unless H "u" 0%fld (size_of (Z.to_nat (ci_wires c)) - size_of (Z.to_nat (ci_wires c)) / 2)
    (exists proof, membership_prove H tr0 stream seed word pb circuit zeros r 0 v msgHash root tt = Ok (proof, x)).
Proof. exact @membership_forged. Qed.
Print Assumptions C59_soundness_refuted.

Example C59_case : environment (G:=exG) (E:=exE) (2 ^ 32) exPB exPP exDigest /\ circuit_file exDigest exCircuit exCircuitFile /\
  usable exX /\ length ReadApi.exPrime = 32%nat /\ is_bytes ReadApi.exPrime.
Proof.
  split; [exact ex_environment|]. split; [exact ex_circuit_file|]. split; [exact ex_usable|]. split; [reflexivity|]. apply ReadProofs.le_string_bytes.
Qed.
