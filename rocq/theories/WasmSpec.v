(** Vocabulary of the theorems about the membership prover and verifier. *)
From Coq Require Import ZArith List Bool.
From Verif Require Import Base Primes Field Zq Vec R1csModel R1csSpec CommitModel TsModel TsSpec ReadModel ReadSpec BinModel BinSpec WasmModel.
Import ListNotations.
Local Open Scope Z_scope.

Definition cpi_list (c : circuit_pub) : list Z := [cp_root c; cp_Tx c; cp_Ty c; cp_Ux c; cp_Uy c].
(** number of variables of the polynomial of [nv] witness values and 5 public ones *)
Definition size_of (nv : nat) : nat := Nat.log2_up (next_pow2 (Nat.max nv 6)).
(** no number becomes p or more when its bytes are reversed *)
Definition reversible (l : list Z) : Prop := Forall (fun v => swap v < p) l.
(** [circuit] is what gen_spartan_inst writes for the .r1cs file of the circuit c *)
Definition circuit_file (digest_of : r1cs Fp -> list nat) (c : circuit) (circuit : list Z) : Prop :=
  exists prime sections tail,
    circuit_ok c /\ sections_ok prime c sections /\ all_coeffs (fun x => swap x < p) c /\ wires_ok (Z.to_nat (ci_wires c)) (ci_cons c) /\
    ci_cons c <> [] /\ ci_wires c < 2 ^ 27 /\ zlen (r1cs_bytes sections) < 2 ^ 32 /\
    gen_circuit digest_of (r1cs_bytes sections ++ tail) 5 = Ok circuit.
(** [file] is a witness file that satisfies the circuit *)
Definition witness_file (c : circuit) (file : list Z) : Prop :=
  exists version prime w tail, file = wtns_bytes version prime (32 * zlen w) w ++ tail /\ wtns_ok version prime w /\
    zlen w = ci_wires c /\ reversible w /\ circom_sat (cons_map fp (ci_cons c)) (map fp w).
(** the public input can be used: it is consistent, it fits its wire format, and its
    circuit part is reversible *)
Definition usable (x : public_input) : Prop :=
  eff_of x /\ pi_fits x /\ is_bytes (pi_msgHash x) /\ reversible (cpi_list (pi_circuit x)).
(** what is assumed of the environment: [usize] has between 32 and 64 bits, points can be
    written and read back, and a digest is a short string of bytes *)
Definition environment {G : Mod Fp} {E : Enc G} (word : Z) (point_bytes : E -> list Z) (point_parse : list Z -> option E) (digest_of : r1cs Fp -> list nat) : Prop :=
  2 ^ 32 <= word <= 2 ^ 64 /\ point_codec word point_bytes point_parse /\
  forall x, Forall (fun b => (b < 256)%nat) (digest_of x) /\ Z.of_nat (length (digest_of x)) < word.
