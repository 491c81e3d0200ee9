(** Model of the file readers: packages/circuit_reader/src/circom_reader.rs (the .r1cs
    format), packages/circuit_reader/src/lib.rs and the .wtns reader of
    packages/spartan_wasm/src/wasm.rs.

    A file is the list of its bytes.  A reader is the list of the bytes that are still
    to come; an [io::Error] is [Err OtherErr].  Simplifications: reserving memory
    ([Vec::with_capacity]) never fails, and the file does not change while it is read. *)
From Coq Require Import ZArith List Bool.
From Verif Require Import Base Primes Field Zq Limb R1csModel.
Import ListNotations.
Local Open Scope Z_scope.

(** [reader.read_exact] on a buffer of [k] bytes *)
Definition read_exact (k : nat) (s : list Z) : res (list Z * list Z) :=
  if Nat.leb k (length s) then Ok (firstn k s, skipn k s) else Err OtherErr.
(** [read_u32::<LittleEndian>] and [read_u64::<LittleEndian>] of byteorder *)
Definition read_u32 (s : list Z) : res (Z * list Z) := do (b, s) <- read_exact 4 s; Ok (of_le b, s).
Definition read_u64 (s : list Z) : res (Z * list Z) := do (b, s) <- read_exact 8 s; Ok (of_le b, s).

(** secq256k1/src/scalar.rs:78-84 ([from_repr], [to_repr]): the bytes are big-endian;
    the value must be below the group order p *)
Definition from_repr (b : list Z) : option Fp :=
  let v := of_le (rev b) in if v <? p then Some (fp v) else None.
Definition to_repr (x : Fp) : list Z := rev (le_bytes 32 (zval x)).
(** Spartan's [Scalar::from_bytes], used by [Instance::new] and [Assignment::new]
    (Spartan-secq/src/lib.rs:64-88 and 165-190): the bytes are little-endian
    (C02_from_bytes proves this of the limb code) *)
Definition le_parse (b : list Z) : option Fp :=
  let v := of_le b in if v <? p then Some (fp v) else None.

(** circom_reader.rs:70-78 and wasm.rs:95-103 ([read_field]): 32 bytes one at a time,
    then [from_repr(repr).unwrap()] *)
Definition read_field (s : list Z) : res (Fp * list Z) :=
  do (b, s) <- read_exact 32 s; do x <- of_opt (from_repr b); Ok (x, s).

(** [for _ in 0..n { vec.push(f(reader)?) }] *)
Fixpoint read_many {A} (f : list Z -> res (A * list Z)) (n : nat) (s : list Z) : res (list A * list Z) :=
  match n with
  | O => Ok ([], s)
  | S n' => do (a, s) <- f s; do (l, s) <- read_many f n' s; Ok (a :: l, s)
  end.

(** circom_reader.rs:22-32 *)
Record header : Type := MkHeader
  { h_field_size : Z; h_prime : list Z; h_wires : Z; h_pub_out : Z; h_pub_in : Z; h_prv_in : Z; h_labels : Z; h_constraints : Z }.
(** circom_reader.rs:80-102 *)
Definition read_header (s : list Z) (size : Z) : res (header * list Z) :=
  do (field_size, s) <- read_u32 s;
  do (prime, s) <- read_exact (Z.to_nat field_size) s;
  if negb (size =? 32 + field_size) then Err OtherErr else
  do (n_wires, s) <- read_u32 s;
  do (n_pub_out, s) <- read_u32 s;
  do (n_pub_in, s) <- read_u32 s;
  do (n_prv_in, s) <- read_u32 s;
  do (n_labels, s) <- read_u64 s;
  do (n_constraints, s) <- read_u32 s;
  Ok (MkHeader field_size prime n_wires n_pub_out n_pub_in n_prv_in n_labels n_constraints, s).

(** circom_reader.rs:104-114 *)
Definition read_term (s : list Z) : res (nat * Fp * list Z) :=
  do (j, s) <- read_u32 s; do (x, s) <- read_field s; Ok ((Z.to_nat j, x), s).
Definition read_constraint_vec (s : list Z) : res (list (nat * Fp) * list Z) :=
  do (n, s) <- read_u32 s; read_many read_term (Z.to_nat n) s.
(** circom_reader.rs:116-130 *)
Definition read_constraint (s : list Z) : res (list (nat * Fp) * list (nat * Fp) * list (nat * Fp) * list Z) :=
  do (a, s) <- read_constraint_vec s; do (b, s) <- read_constraint_vec s; do (c, s) <- read_constraint_vec s;
  Ok ((a, b, c), s).
Definition read_constraints (s : list Z) (h : header) := read_many read_constraint (Z.to_nat (h_constraints h)) s.

(** circom_reader.rs:132-150; [vec[0]] of an empty vector panics.  The product of a
    [u32] converted to [u64] and 8 does not overflow. *)
Definition read_map (s : list Z) (size : Z) (h : header) : res (list Z * list Z) :=
  if negb (size =? h_wires h * 8) then Err OtherErr else
  do (l, s) <- read_many read_u64 (Z.to_nat (h_wires h)) s;
  do l0 <- idx l 0;
  if l0 =? 0 then Ok (l, s) else Err OtherErr.

(** the reader after [seek(SeekFrom::Start(pos))]; a position after the end is allowed *)
Definition seek (file : list Z) (pos : Z) : list Z :=
  if pos <? Z.of_nat (length file) then skipn (Z.to_nat pos) file else [].
(** [section_size as i64] *)
Definition as_i64 (v : Z) : Z := if v <? 2 ^ 63 then v else v - 2 ^ 64.
(** circom_reader.rs:167-181: the table of section types, offsets and sizes; the newest
    entry comes first.  A seek to a negative position, or to one that is not an [i64],
    is an [io::Error]. *)
Fixpoint read_sections (file : list Z) (n : nat) (pos : Z) (t : list (Z * (Z * Z))) : res (list (Z * (Z * Z))) :=
  match n with
  | O => Ok t
  | S n' =>
    do (ty, s) <- read_u32 (seek file pos);
    do (size, _) <- read_u64 s;
    let off := pos + 12 in
    let pos' := off + as_i64 size in
    if (pos' <? 0) || (2 ^ 63 <=? pos') then Err OtherErr
    else read_sections file n' pos' ((ty, (off, size)) :: t)
  end.
(** [section_offsets.get(&k).unwrap()] *)
Definition section (t : list (Z * (Z * Z))) (k : Z) : res (Z * Z) :=
  match find (fun e => fst e =? k) t with Some e => Ok (snd e) | None => Panic end.

(** circom_reader.rs:35-41 *)
Record r1cs_file : Type := MkR1csFile
  { f_header : header; f_constraints : list (list (nat * Fp) * list (nat * Fp) * list (nat * Fp)); f_map : list Z }.
(** circom_reader.rs:152-215 *)
Definition from_reader (file : list Z) : res r1cs_file :=
  do (magic, s) <- read_exact 4 file;
  if negb (if list_eq_dec Z.eq_dec magic [0x72; 0x31; 0x63; 0x73] then true else false) then Err OtherErr else
  do (version, s) <- read_u32 s;
  if negb (version =? 1) then Err OtherErr else
  do (num_sections, s) <- read_u32 s;
  do t <- read_sections file (Z.to_nat num_sections) 12 [];
  do (off, size) <- section t 1;
  do (h, _) <- read_header (seek file off) size;
  if negb (h_field_size h =? 32) then Err OtherErr else
  do (off, _) <- section t 2;
  do (cs, _) <- read_constraints (seek file off) h;
  do (off, size) <- section t 3;
  do (m, _) <- read_map (seek file off) size h;
  Ok (MkR1csFile h cs m).

(** circom_reader.rs:53-68: a reader error panics.  [num_inputs] and [num_aux] (which the
    converter does not use) are computed with wrapping, as in a release build; a debug
    build panics instead. *)
Definition num_inputs (h : header) : Z := (1 + h_pub_in h + h_pub_out h) mod 2 ^ 32.
Definition num_aux (h : header) : Z := (h_wires h - num_inputs h) mod 2 ^ 64.
Definition load_r1cs (file : list Z) : res (circom Fp * list Z) :=
  match from_reader file with
  | Ok f => Ok (MkCircom (Z.to_nat (h_wires (f_header f))) (f_constraints f), f_map f)
  | _ => Panic
  end.
(** circuit_reader/src/lib.rs:10-14 *)
Definition load_as_spartan_inst {D} (digest_of : r1cs Fp -> D) (file : list Z) (num_pub_inputs : nat) : res (instance Fp D) :=
  do (r, _) <- load_r1cs file; convert le_parse digest_of to_repr r num_pub_inputs.

(** wasm.rs:105-162 ([load_witness_from_bin_reader]); the product of the [u32] values
    wraps in a release build (a debug build panics, as the check then does) *)
Definition load_witness (s : list Z) : res (list Fp) :=
  do (magic, s) <- read_exact 4 s;
  assert (if list_eq_dec Z.eq_dec magic [119; 116; 110; 115] then true else false);
  do (version, s) <- read_u32 s; assert (version <=? 2);
  do (num_sections, s) <- read_u32 s; assert (num_sections =? 2);
  do (sec_type, s) <- read_u32 s; assert (sec_type =? 1);
  do (sec_size, s) <- read_u64 s; assert (sec_size =? 40);
  do (field_size, s) <- read_u32 s; assert (field_size =? 32);
  do (prime, s) <- read_exact (Z.to_nat field_size) s;
  do (witness_len, s) <- read_u32 s;
  do (sec_type, s) <- read_u32 s; assert (sec_type =? 2);
  do (sec_size, s) <- read_u64 s; assert (sec_size =? (witness_len * field_size) mod 2 ^ 32);
  do (l, _) <- read_many read_field (Z.to_nat witness_len) s;
  Ok l.
(** wasm.rs:21-27: [load_witness_from_bin_reader(vars).unwrap()], then the bytes of every
    element go to [Assignment::new] *)
Definition witness_assignment (s : list Z) : res (list Fp) :=
  match load_witness s with
  | Ok l => match assignment_new le_parse (map to_repr l) with Ok a => Ok a | _ => Panic end
  | _ => Panic
  end.
