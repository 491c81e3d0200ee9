(** The .r1cs and .wtns file formats (iden3), written independently of the readers.
    Little-endian numbers; [be_string] and [be_value] are in TsSpec.v. *)
From Coq Require Import ZArith List Bool.
From Verif Require Import Base Primes Field Zq TsSpec.
Import ListNotations.
Local Open Scope Z_scope.

Definition le_string (k : nat) (v : Z) : list Z := rev (be_string k v).
Definition zlen {A} (l : list A) : Z := Z.of_nat (length l).
Definition u32 (v : Z) : Prop := 0 <= v < 2 ^ 32.
Definition u64 (v : Z) : Prop := 0 <= v < 2 ^ 64.

(** the number whose 32 bytes are those of [v] in the opposite order *)
Definition swap (v : Z) : Z := be_value (le_string 32 v).

(** ** circuits: coefficients are integers *)
Notation zlin := (list (nat * Z)).
Notation zcons := (list (zlin * zlin * zlin)).
Record circuit : Type := MkCircuit
  { ci_wires : Z; ci_pub_out : Z; ci_pub_in : Z; ci_prv_in : Z; ci_labels : Z; ci_cons : zcons; ci_map : list Z }.

Definition lin_bytes (l : zlin) : list Z :=
  le_string 4 (zlen l) ++ flat_map (fun '(j, x) => le_string 4 (Z.of_nat j) ++ le_string 32 x) l.
Definition header_body (prime : list Z) (c : circuit) : list Z :=
  le_string 4 32 ++ prime ++ le_string 4 (ci_wires c) ++ le_string 4 (ci_pub_out c) ++ le_string 4 (ci_pub_in c) ++
  le_string 4 (ci_prv_in c) ++ le_string 8 (ci_labels c) ++ le_string 4 (zlen (ci_cons c)).
Definition cons_body (c : circuit) : list Z :=
  flat_map (fun '(a, b, c) => lin_bytes a ++ lin_bytes b ++ lin_bytes c) (ci_cons c).
Definition map_body (c : circuit) : list Z := flat_map (le_string 8) (ci_map c).
Definition section_bytes (s : Z * list Z) : list Z := le_string 4 (fst s) ++ le_string 8 (zlen (snd s)) ++ snd s.
(** a file: magic number, version, and sections of any types in any order *)
Definition r1cs_bytes (sections : list (Z * list Z)) : list Z :=
  [0x72; 0x31; 0x63; 0x73] ++ le_string 4 1 ++ le_string 4 (zlen sections) ++ flat_map section_bytes sections.

Definition lin_fits (l : zlin) : Prop := u32 (zlen l) /\ forall j x, In (j, x) l -> u32 (Z.of_nat j) /\ 0 <= x < p.
(** a well-formed circuit: numbers fit their fields, coefficients are canonical, every
    wire has a label and wire 0 has label 0 *)
Definition circuit_ok (c : circuit) : Prop :=
  u32 (ci_wires c) /\ u32 (ci_pub_out c) /\ u32 (ci_pub_in c) /\ u32 (ci_prv_in c) /\ u64 (ci_labels c) /\ u32 (zlen (ci_cons c)) /\
  (forall a b d, In (a, b, d) (ci_cons c) -> lin_fits a /\ lin_fits b /\ lin_fits d) /\
  zlen (ci_map c) = ci_wires c /\ Forall u64 (ci_map c) /\ nth_error (ci_map c) 0 = Some 0.
(** the sections of a file of the circuit: each of the three is there, no type occurs
    twice, the file is not longer than a file can be *)
Definition sections_ok (prime : list Z) (c : circuit) (sections : list (Z * list Z)) : Prop :=
  length prime = 32%nat /\ is_bytes prime /\
  In (1, header_body prime c) sections /\ In (2, cons_body c) sections /\ In (3, map_body c) sections /\
  NoDup (map fst sections) /\ (forall t b, In (t, b) sections -> u32 t) /\
  u32 (zlen sections) /\ zlen (r1cs_bytes sections) < 2 ^ 63.

(** every coefficient of the circuit *)
Definition all_coeffs (Q : Z -> Prop) (c : circuit) : Prop :=
  forall a b d, In (a, b, d) (ci_cons c) ->
    (forall j x, In (j, x) a -> Q x) /\ (forall j x, In (j, x) b -> Q x) /\ (forall j x, In (j, x) d -> Q x).

(** ** witnesses *)
Definition wtns_bytes (version : Z) (prime : list Z) (size : Z) (w : list Z) : list Z :=
  [119; 116; 110; 115] ++ le_string 4 version ++ le_string 4 2 ++
  le_string 4 1 ++ le_string 8 40 ++ le_string 4 32 ++ prime ++ le_string 4 (zlen w) ++
  le_string 4 2 ++ le_string 8 size ++ flat_map (le_string 32) w.
(** an honestly written file: the size field is 32 bytes per element *)
Definition wtns_ok (version : Z) (prime w : list Z) : Prop :=
  0 <= version <= 2 /\ length prime = 32%nat /\ is_bytes prime /\ u32 (zlen w) /\ Forall (fun v => 0 <= v < p) w.
