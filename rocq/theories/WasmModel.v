(** Model of packages/spartan_wasm/src/wasm.rs (prove, verify, poseidon) and of
    packages/lib/src/core/{prover,verifier}.ts, packages/lib/src/helpers/poseidon.ts.

    A Rust panic inside wasm is a JavaScript exception for the caller, so both are
    [Panic].  Profiling output, the configuration warning and the initialisation of the
    wasm module are left out; the circuit file has been loaded. *)
From Coq Require Import ZArith List Bool.
From Verif Require Import Base Primes Field Zq Limb Vec R1csModel CommitModel SigmaModel SumModel NizkModel PosModel TsModel ReadModel BinModel.
Import ListNotations.
Local Open Scope Z_scope.

(** circuit_reader/src/bin/gen_spartan_inst.rs:8-24: reads a .r1cs file and writes the
    instance for the given number of public inputs *)
Definition gen_circuit (digest_of : r1cs Fp -> list nat) (file : list Z) (num_pub_inputs : nat) : res (list Z) :=
  do ii <- load_as_spartan_inst digest_of file num_pub_inputs; Ok (ser_instance ii).

Section Wasm.
  Context {G : Mod Fp} {E : Enc G}.
  (** the challenge function of the transcript, the state of
      [Transcript::new(b"nizk_example")], the generator stream of the label, and what the
      system's random generator returns *)
  Variables (H : log E -> Fp) (tr0 : log E) (stream : nat -> G) (seed : Fp).
  (** the range of [usize] and the bytes of points (BinModel.v) *)
  Variables (word : Z) (point_bytes : E -> list Z) (point_parse : list Z -> option E).
  (** [.unwrap()] *)
  Definition unwrap {A} (x : res A) : res A := match x with Ok a => Ok a | _ => Panic end.

  (** wasm.rs:37-41 and 72-76: [bytes[(i * 32)..((i + 1) * 32)]] for each i below
      num_inputs; a range past the end panics *)
  Fixpoint chunks (num : nat) (b : list Z) : res (list (list Z)) :=
    match num with
    | O => Ok []
    | S k => assert (Nat.leb 32 (length b)); do l <- chunks k (skipn 32 b); Ok (firstn 32 b :: l)
    end.
  (** [Assignment::new(..).unwrap()] *)
  Definition assignment_unwrap (l : list (list Z)) : res (list Fp) :=
    match assignment_new le_parse l with Ok a => Ok a | _ => Panic end.
  Definition inputs_of (I : instance Fp (list nat)) (b : list Z) : res (list Fp) :=
    do l <- chunks (rc_inputs (inst I)) b; assignment_unwrap l.

  (** wasm.rs:19-56 *)
  Definition wasm_prove (circuit vars public_inputs : list Z) : res (list Z) :=
    do assignment <- witness_assignment vars;
    do ii <- unwrap (dec_instance word circuit);
    do g <- nizkgens_new (rc_vars (inst ii)) (rc_inputs (inst ii)) stream;
    do input <- inputs_of ii public_inputs;
    do (pf, _) <- nizk_prove H ii assignment input g seed tr0;
    Ok (ser_nizk point_bytes pf).
  (** wasm.rs:58-84; the errors of [NIZK::verify] become [false], its panics do not *)
  Definition wasm_verify (circuit proof public_input : list Z) : res bool :=
    do ii <- unwrap (dec_instance word circuit);
    do pf <- unwrap (dec_nizk word point_parse proof);
    do g <- nizkgens_new (rc_vars (inst ii)) (rc_inputs (inst ii)) stream;
    do inputs <- inputs_of ii public_input;
    match nizk_verify H pf ii inputs tr0 g with Ok _ => Ok true | Err _ => Ok false | Panic => Panic end.

  (** prover.ts:57-108; [r], [s], [v] are the result of fromSig (UtilModel.v)
      and [witness_gen] is snarkjs' witness generator on s, the Merkle proof and the
      effective ECDSA inputs, which throws or returns the bytes of a .wtns file *)
  Definition membership_prove {M} (circuit : list Z) (witness_gen : Z -> M -> Z * Z * Z * Z -> res (list Z))
      (r s v : Z) (msgHash : list Z) (root : Z) (merkleProof : M) : res (list Z * public_input) :=
    do e <- computeEff r v msgHash;
    let '(Tx, Ty, Ux, Uy) := e in
    let x := MkPI r v msgHash (MkCPI root Tx Ty Ux Uy) in
    do witness <- witness_gen s merkleProof e;
    do b <- cpi_serialize (pi_circuit x);
    do proof <- wasm_prove circuit witness b;
    Ok (proof, x).
  (** verifier.ts:47-72 *)
  Definition membership_verify (circuit proof publicInputSer : list Z) : res bool :=
    do x <- pi_deserialize publicInputSer;
    do isPubInputValid <- verifyEff x;
    let isProofValid :=
      match (do b <- cpi_serialize (pi_circuit x); wasm_verify circuit proof b) with Ok b => b | _ => false end in
    Ok (isProofValid && isPubInputValid).
End Wasm.

(** wasm.rs:86-99 (poseidon); [FieldElement::from_bytes] is little-endian *)
Definition wasm_poseidon (b : list Z) : res (list Z) :=
  assert (Nat.eqb (length b) 64);
  do x <- of_opt (le_parse (firstn 32 b));
  do y <- of_opt (le_parse (skipn 32 b));
  do h <- k256_hash x y;
  Ok (le_bytes 32 (zval h)).
(** poseidon.ts:5-13 (hash) *)
Fixpoint set_inputs (buf : list Z) (i : nat) (inputs : list Z) : res (list Z) :=
  match inputs with
  | [] => Ok buf
  | x :: t => do buf <- js_set buf (bigIntToLeBytes x 32) (i * 32); set_inputs buf (S i) t
  end.
Definition poseidon_hash (inputs : list Z) : res Z :=
  do b <- set_inputs (repeat 0 (32 * length inputs)) 0 inputs;
  do r <- wasm_poseidon b;
  bytesLeToBigInt r.
(** poseidon.ts:19-25 (hashPubKey); [slice] on a string *)
Definition hashPubKey (pubKey : list Z) : res Z :=
  do x <- bigint_of_hex (js_slice 0 64 (buffer_hex pubKey));
  do y <- bigint_of_hex (js_slice 64 128 (buffer_hex pubKey));
  poseidon_hash [x; y].
