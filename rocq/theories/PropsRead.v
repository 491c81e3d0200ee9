(** Properties C50 and C51: the .r1cs and .wtns readers (ReadModel.v).  The file formats
    are [r1cs_bytes] and [wtns_bytes] of ReadSpec.v; [swap x] is the number with the
    bytes of [x] in the opposite order; [tail] is anything after the last section. *)
From Coq Require Import ZArith List Bool Lia.
From Verif Require Import Base Primes Field Zq R1csModel R1csSpec TsSpec ReadModel ReadSpec ReadProofs ReadApi.
Import ListNotations.
Local Open Scope Z_scope.

(** ** C50 *)
(** loading a circuit file gives an instance that accepts exactly the wire assignments
    satisfying the circuit, whatever the order of the sections, if no byte-reversed
    coefficient reaches p *)
Theorem C50_load : forall (D : Type) (digest_of : r1cs Fp -> D) prime c sections tail ni,
  circuit_ok c -> sections_ok prime c sections -> all_coeffs (fun x => swap x < p) c ->
  wires_ok (Z.to_nat (ci_wires c)) (ci_cons c) ->
  exists I, load_as_spartan_inst digest_of (r1cs_bytes sections ++ tail) ni = Ok I /\
    forall w inputs, length w = Z.to_nat (ci_wires c) -> length inputs = ni ->
      exists b, instance_is_sat I w inputs = Ok b /\ (b = true <-> circom_sat (cons_map fp (ci_cons c)) w).
Proof. exact (@load_ok). Qed.
Print Assumptions C50_load.

(** the reader itself returns the header, the wire map, and the constraints with the
    bytes of every coefficient reversed *)
Theorem C50_reader : forall prime c sections tail,
  circuit_ok c -> sections_ok prime c sections -> all_coeffs (fun x => swap x < p) c ->
  from_reader (r1cs_bytes sections ++ tail) = Ok (MkR1csFile
    (MkHeader 32 prime (ci_wires c) (ci_pub_out c) (ci_pub_in c) (ci_prv_in c) (ci_labels c) (zlen (ci_cons c)))
    (cons_map (fun x => fp (swap x)) (ci_cons c)) (ci_map c)).
Proof. exact from_reader_good. Qed.
Print Assumptions C50_reader.

(** a canonical coefficient whose reversal reaches p stops the reader: the property is
    false without that condition *)
Theorem C50_byte_order_refuted : forall (D : Type) (digest_of : r1cs Fp -> D) prime c sections tail ni,
  circuit_ok c -> sections_ok prime c sections -> ~ all_coeffs (fun x => swap x < p) c ->
  load_as_spartan_inst digest_of (r1cs_bytes sections ++ tail) ni = Panic.
Proof. exact (@load_panics). Qed.
Print Assumptions C50_byte_order_refuted.

(** every byte string without the magic number and version 1 is an error *)
Theorem C50_rejects : forall b, firstn 4 b <> [0x72; 0x31; 0x63; 0x73] \/ firstn 4 (skipn 4 b) <> le_string 4 1 -> is_bytes b ->
  from_reader b = Err OtherErr.
Proof. exact r1cs_rejects. Qed.
Print Assumptions C50_rejects.

(** whatever the reader accepts, its parts agree with one another *)
Theorem C50_accepts : forall b f, is_bytes b -> from_reader b = Ok f ->
  (exists k rest, b = [0x72; 0x31; 0x63; 0x73] ++ le_string 4 1 ++ le_string 4 k ++ rest) /\ h_field_size (f_header f) = 32 /\
  h_wires (f_header f) = zlen (f_map f) /\ h_constraints (f_header f) = zlen (f_constraints f) /\ nth_error (f_map f) 0 = Some 0.
Proof. exact r1cs_accepts. Qed.
Print Assumptions C50_accepts.

(** w1 * w1 = 7 w2, sections in the order 3, 9, 2, 1; and the same circuit with the
    coefficient 2^224 - 1 in place of 7 *)
Example C50_case : circuit_ok exCircuit /\ sections_ok exPrime exCircuit (exSections exCircuit) /\
  all_coeffs (fun x => swap x < p) exCircuit /\ wires_ok (Z.to_nat (ci_wires exCircuit)) (ci_cons exCircuit) /\
  circuit_ok exCircuit' /\ sections_ok exPrime exCircuit' (exSections exCircuit') /\ ~ all_coeffs (fun x => swap x < p) exCircuit' /\
  length exFile = 271%nat /\ exFile = r1cs_bytes (exSections exCircuit) /\
  from_reader (12 :: exFile) = Err OtherErr.
Proof.
  assert (P7 : 0 <= 7 < p) by (split; [discriminate|reflexivity]).
  assert (PB : 0 <= 2 ^ 224 - 1 < p) by (split; [discriminate|reflexivity]).
  split; [exact (ex_circuit_ok 7 P7)|]. split; [exact (ex_sections_ok 7)|].
  split. { apply coeffs_okb_spec. vm_compute. reflexivity. }
  split. { intros a b d [E|[]]. injection E as <- <- <-. cbn [ci_wires exCircuit]. repeat split; intros j x [E|[]]; injection E as <- <-; vm_compute; lia. }
  split; [exact (ex_circuit_ok _ PB)|]. split; [exact (ex_sections_ok _)|].
  split. { rewrite <- coeffs_okb_spec. vm_compute. discriminate. }
  split; [reflexivity|]. split; [vm_compute; reflexivity|]. vm_compute. reflexivity.
Qed.

(** ** C51 *)
(** a witness file of fewer than 2^27 elements is read as the witness it contains *)
Theorem C51_reads : forall version prime w tail, wtns_ok version prime w -> zlen w < 2 ^ 27 -> Forall (fun x => swap x < p) w ->
  load_witness (wtns_bytes version prime (32 * zlen w) w ++ tail) = Ok (map (fun x => fp (swap x)) w) /\
  witness_assignment (wtns_bytes version prime (32 * zlen w) w ++ tail) = Ok (map fp w).
Proof. exact witness_ok. Qed.
Print Assumptions C51_reads.

(** outside these conditions every correct file is refused with a panic *)
Theorem C51_valid_files_refuted : forall version prime w tail, wtns_ok version prime w ->
  2 ^ 27 <= zlen w \/ Exists (fun x => p <= swap x) w ->
  load_witness (wtns_bytes version prime (32 * zlen w) w ++ tail) = Panic /\
  witness_assignment (wtns_bytes version prime (32 * zlen w) w ++ tail) = Panic.
Proof. exact witness_panics. Qed.
Print Assumptions C51_valid_files_refuted.

(** the files that are accepted are exactly these; the size field is compared modulo 2^32 *)
Theorem C51_accepts : forall b l, is_bytes b ->
  (load_witness b = Ok l <->
   exists version prime w tail, b = wtns_bytes version prime ((32 * zlen w) mod 2 ^ 32) w ++ tail /\
     0 <= version <= 2 /\ length prime = 32%nat /\ u32 (zlen w) /\
     Forall (fun v => 0 <= v < 2 ^ 256 /\ swap v < p) w /\ l = map (fun v => fp (swap v)) w).
Proof. exact load_witness_iff. Qed.
Print Assumptions C51_accepts.

Example C51_case : wtns_ok 2 exPrime exWitness /\ zlen exWitness < 2 ^ 27 /\ Forall (fun x => swap x < p) exWitness /\
  length (wtns_bytes 2 exPrime (32 * zlen exWitness) exWitness) = 172%nat /\
  wtns_ok 2 exPrime [1; 2 ^ 224 - 1] /\ Exists (fun x => p <= swap x) [1; 2 ^ 224 - 1].
Proof.
  assert (A : forall w, zlen w < 10 -> Forall (fun v => 0 <= v < p) w -> wtns_ok 2 exPrime w).
  { intros w L F. split; [lia|]. split; [apply le_string_length|]. split; [apply le_string_bytes|].
    split; [split; [apply zlen_nonneg|lia]|exact F]. }
  split. { apply A; [reflexivity|]. repeat constructor; discriminate || reflexivity. }
  split; [reflexivity|]. split. { repeat constructor. }
  split; [vm_compute; reflexivity|]. split. { apply A; [reflexivity|]. repeat constructor; discriminate || reflexivity. }
  right. left. vm_compute. discriminate.
Qed.
