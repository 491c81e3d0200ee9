(** Model of the curve library: packages/secq256k1/src/scalar.rs, affine.rs and lib.rs, and of
    the conversion of scalars in packages/Spartan-secq/src/scalar/mod.rs and group.rs.

    Dependencies: [ScalarCore] (crate elliptic-curve) is the integers below ORDER with their
    big- and little-endian bytes, sum, difference and negation modulo ORDER.  The addition and
    the multiplication of points in crate primeorder are [eadd] and [emul] of CurveSpec.v; its
    reading and writing of encoded points (SEC1) is modelled here in full. *)
From Coq Require Import ZArith List Bool.
From Verif Require Import Base Limb HashModel.
Import ListNotations.
Local Open Scope Z_scope.

(** lib.rs:20-31 *)
Definition ORDER : Z := 0xfffffffffffffffffffffffffffffffffffffffffffffffffffffffefffffc2f.

(** scalar.rs:78-84: [ScalarCore::from_be_bytes] and [to_be_bytes] *)
Definition s_from_repr (bs : list Z) : option Z :=
  let v := of_le (rev bs) in if v <? ORDER then Some v else None.
Definition s_to_repr (s : Z) : list Z := rev (le_bytes 32 s).
(** scalar.rs:294-296 *)
Definition s_to_bytes (s : Z) : list Z := le_bytes 32 s.
(** scalar.rs:112-166 and 199-205 *)
Definition s_add (a b : Z) : Z := (a + b) mod ORDER.
Definition s_sub (a b : Z) : Z := (a - b) mod ORDER.
Definition s_neg (a : Z) : Z := (- a) mod ORDER.
(** scalar.rs:58-60 *)
Definition s_double (a : Z) : Z := s_add a a.
(** scalar.rs:168-177: through the field element of field_secp.rs and back *)
Definition s_mul (a b : Z) : res Z :=
  do x <- of_opt (from_bytes SECP (s_to_bytes a));
  do y <- of_opt (from_bytes SECP (s_to_bytes b));
  of_opt (s_from_repr (to_be_bytes SECP (mul SECP x y))).
(** scalar.rs:53-55, 62-68, 207-229: not implemented *)
Definition s_square (a : Z) : res Z := Panic.
Definition s_invert (a : Z) : res (option Z) := Panic.
Definition s_sqrt (a : Z) : res (option Z) := Panic.
Definition s_sum (l : list Z) : res Z := Panic.
Definition s_product (l : list Z) : res Z := Panic.
(** scalar.rs:231-238: [sbb] on 256-bit integers, then [ScalarCore::new(..).unwrap()] *)
Definition from_uint_reduced (w : Z) : res Z :=
  let r := (w - ORDER) mod 2 ^ 256 in
  let underflow := w <? ORDER in
  let reduced := if negb underflow then r else w in
  of_opt (if reduced <? ORDER then Some reduced else None).
(** Spartan-secq/src/scalar/mod.rs:37-39 *)
Definition decompress_scalar (s : fe) : res Z := from_uint_reduced (of_le (to_bytes SECP s)).

(** scalar.rs:76 and 90-101 *)
Definition SCALAR_S : Z := 4.
Definition s_generator : Z := 7.
Definition s_root_of_unity : res Z :=
  of_opt (s_from_repr
    [0xff; 0xc9; 0x7f; 0x06; 0x2a; 0x77; 0x09; 0x92; 0xba; 0x80; 0x7a; 0xce; 0x84; 0x2a;
     0x3d; 0xfc; 0x15; 0x46; 0xca; 0xd0; 0x04; 0x37; 0x8d; 0xaf; 0x05; 0x92; 0xd7; 0xfb;
     0xb4; 0x1e; 0x66; 0x02]).
(** scalar.rs:312-314: the 32 bytes whose bits are given, first byte first *)
Definition char_le_bits : list Z := rev (le_bytes 32 ORDER).
(** field_secq.rs:470 and 492-499; field_secp.rs:419 and 441-448 *)
Definition SECQ_S : Z := 1.
Definition secq_root_of_unity : fe := from_raw SECQ 0x992f4b5402b052f2 0x98bdeab680756045 0xdf9879a3fbc483a8 0xc1dc060e7a91986.
Definition SECP_S : Z := 1.
Definition secp_root_of_unity : fe :=
  from_raw SECP 18446744069414583342 18446744073709551615 18446744073709551615 18446744073709551615.

(** field_secp.rs:437-439; the other field's, 7 (field_secq.rs:488-490), is not modelled *)
Definition secp_generator : fe := from_u64 SECP 3.

(** a point of primeorder: the identity or a pair of coordinates *)
Definition point : Type := option (fe * fe).
(** affine.rs:91-93, lib.rs:43-60 *)
Definition generator : point := Some GENERATOR.
(** affine.rs:87-89 *)
Definition identity : point := None.

(** [x^3 + EQUATION_A x + EQUATION_B] *)
Definition curve_rhs (x : fe) : fe :=
  add SECQ (add SECQ (mul SECQ (mul SECQ x x) x) (mul SECQ zero x)) EQUATION_B.

(** affine.rs:207-209: [to_encoded_point(true)].  The tag is the parity of the last byte of [y] *)
Definition compress_point (P : point) : list Z :=
  match P with
  | None => [0]
  | Some (x, y) => (2 + Z.land (last (to_be_bytes SECQ y) 0) 1) :: to_be_bytes SECQ x
  end.

(** affine.rs:211-213: [from_encoded_point].  [ksqrt] is the square root of crate k256 used by
    field_secq.rs:445-450.  The bytes are what an [EncodedPoint] can hold: 1, 33 or 65 of them;
    the compact form (tag 5) is refused *)
Definition decompress_point (ksqrt : Z -> option Z) (bs : list Z) : res (option point) :=
  match bs with
  | [] => Ok None
  | tag :: rest =>
    if (tag =? 0) && Nat.eqb (length rest) 0 then Ok (Some None)
    else if ((tag =? 2) || (tag =? 3)) && Nat.eqb (length rest) 32 then
      match from_sec1 SECQ rest with
      | None => Ok None
      | Some x =>
        do beta <- secq_sqrt SECQ ksqrt (curve_rhs x);
        Ok (option_map (fun b => Some (x, if Bool.eqb (is_odd SECQ b) (tag =? 3) then b else neg SECQ b)) beta)
      end
    else if (tag =? 4) && Nat.eqb (length rest) 64 then
      Ok (option_map Some
        match from_sec1 SECQ (slice rest 32 64), from_sec1 SECQ (slice rest 0 32) with
        | Some y, Some x => if Limb.eqb (mul SECQ y y) (curve_rhs x) then Some (x, y) else None
        | _, _ => None
        end)
    else Ok None
  end.

(** commitments.rs:16-34 of Spartan-secq: the i-th generator from the i-th block of 128 bytes
    of the extendable-output function.  [padd] is the addition of points *)
Definition gens_point {G : Type} (padd : fe * fe -> fe * fe -> G) (xof : nat -> list Z) (i : nat) : res G :=
  from_uniform_bytes padd (xof i).
