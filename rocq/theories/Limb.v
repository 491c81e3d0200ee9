(** Model of the limb arithmetic shared, constant for constant, by three types:
      - Scalar             packages/Spartan-secq/src/scalar/scalar.rs
      - FieldElement       packages/secq256k1/src/field/field_secp.rs
      - FieldElement       packages/secq256k1/src/field/field_secq.rs
    The three files contain the same function bodies with different constants, so
    the functions are written once over a record of constants and instantiated
    three times at the end.  Line numbers are those of scalar.rs; the same bodies
    are at field_secp.rs:26-43,343-347,601-1066 and field_secq.rs:25-42,282-345,652-1066.
    A u64 is a Z in [0,2^64); u128 intermediates are Z.  Casts are written as
    explicit mod and div. *)
From Coq Require Import ZArith List Bool.
From Verif Require Import Base.
Import ListNotations.
Local Open Scope Z_scope.

Definition B64 : Z := 2 ^ 64.
Definition lo64 (x : Z) : Z := x mod B64.
Definition hi64 (x : Z) : Z := (x / B64) mod B64.

(** scalar.rs:22-25 *)
Definition adc (a b carry : Z) : Z * Z :=
  let ret := a + b + carry in (lo64 ret, hi64 ret).
(** scalar.rs:29-32; [wrapping_sub] on u128 followed by the two casts *)
Definition sbb (a b borrow : Z) : Z * Z :=
  let ret := (a - (b + borrow / 2 ^ 63)) mod 2 ^ 128 in (lo64 ret, hi64 ret).
(** scalar.rs:36-39 *)
Definition mac (a b c carry : Z) : Z * Z :=
  let ret := a + b * c + carry in (lo64 ret, hi64 ret).

(** scalar.rs:201, [Scalar(pub(crate) [u64; 5])] *)
Record fe : Type := Fe { l0 : Z; l1 : Z; l2 : Z; l3 : Z; l4 : Z }.

(** The constants MODULUS, INV, R, R2, R3. *)
Record params : Type := MkParams {
  MODULUS : fe; INV : Z; R : fe; R2 : fe; R3 : fe
}.

(** 8-byte little-endian words: [u64::from_le_bytes], [to_le_bytes]. *)
Fixpoint le_bytes (k : nat) (x : Z) : list Z :=
  match k with O => [] | S k' => x mod 256 :: le_bytes k' (x / 256) end.
Fixpoint of_le (bs : list Z) : Z :=
  match bs with [] => 0 | b :: t => b + 256 * of_le t end.
Definition slice (bs : list Z) (i j : nat) : list Z := firstn (j - i) (skipn i bs).
(** [u64::from_le_bytes(bytes[i..j])] *)
Definition word (bs : list Z) (i j : nat) : Z := of_le (slice bs i j).

Section Ops.
  Variable P : params.
  Let M := MODULUS P.

  (** scalar.rs:769-786 *)
  Definition sub (a b : fe) : fe :=
    let '(d0, borrow) := sbb (l0 a) (l0 b) 0 in
    let '(d1, borrow) := sbb (l1 a) (l1 b) borrow in
    let '(d2, borrow) := sbb (l2 a) (l2 b) borrow in
    let '(d3, borrow) := sbb (l3 a) (l3 b) borrow in
    let '(d4, borrow) := sbb (l4 a) (l4 b) borrow in
    let '(d0, carry) := adc d0 (Z.land (l0 M) borrow) 0 in
    let '(d1, carry) := adc d1 (Z.land (l1 M) borrow) carry in
    let '(d2, carry) := adc d2 (Z.land (l2 M) borrow) carry in
    let '(d3, carry) := adc d3 (Z.land (l3 M) borrow) carry in
    let '(d4, _) := adc d4 (Z.land (l4 M) borrow) carry in
    Fe d0 d1 d2 d3 d4.

  (** scalar.rs:789-799 *)
  Definition add (a b : fe) : fe :=
    let '(d0, carry) := adc (l0 a) (l0 b) 0 in
    let '(d1, carry) := adc (l1 a) (l1 b) carry in
    let '(d2, carry) := adc (l2 a) (l2 b) carry in
    let '(d3, carry) := adc (l3 a) (l3 b) carry in
    let '(d4, _) := adc (l4 a) (l4 b) carry in
    sub (Fe d0 d1 d2 d3 d4) M.

  (** scalar.rs:803-819 *)
  Definition neg (a : fe) : fe :=
    let '(d0, borrow) := sbb (l0 M) (l0 a) 0 in
    let '(d1, borrow) := sbb (l1 M) (l1 a) borrow in
    let '(d2, borrow) := sbb (l2 M) (l2 a) borrow in
    let '(d3, borrow) := sbb (l3 M) (l3 a) borrow in
    let '(d4, _) := sbb (l4 M) (l4 a) borrow in
    let any := Z.lor (Z.lor (Z.lor (Z.lor (l0 a) (l1 a)) (l2 a)) (l3 a)) (l4 a) in
    let mask := ((if any =? 0 then 1 else 0) - 1) mod B64 in
    Fe (Z.land d0 mask) (Z.land d1 mask) (Z.land d2 mask) (Z.land d3 mask) (Z.land d4 mask).

  (** scalar.rs:678-728 *)
  Definition montgomery_reduce (r0 r1 r2 r3 r4 r5 r6 r7 r8 : Z) : fe :=
    let k := (r0 * INV P) mod B64 in
    let '(_, carry) := mac r0 k (l0 M) 0 in
    let '(r1, carry) := mac r1 k (l1 M) carry in
    let '(r2, carry) := mac r2 k (l2 M) carry in
    let '(r3, carry) := mac r3 k (l3 M) carry in
    let '(r4, carry) := mac r4 k (l4 M) carry in
    let '(r5, carry2) := adc r5 0 carry in
    let k := (r1 * INV P) mod B64 in
    let '(_, carry) := mac r1 k (l0 M) 0 in
    let '(r2, carry) := mac r2 k (l1 M) carry in
    let '(r3, carry) := mac r3 k (l2 M) carry in
    let '(r4, carry) := mac r4 k (l3 M) carry in
    let '(r5, carry) := mac r5 k (l4 M) carry in
    let '(r6, carry2) := adc r6 carry2 carry in
    let k := (r2 * INV P) mod B64 in
    let '(_, carry) := mac r2 k (l0 M) 0 in
    let '(r3, carry) := mac r3 k (l1 M) carry in
    let '(r4, carry) := mac r4 k (l2 M) carry in
    let '(r5, carry) := mac r5 k (l3 M) carry in
    let '(r6, carry) := mac r6 k (l4 M) carry in
    let '(r7, carry2) := adc r7 carry2 carry in
    let k := (r3 * INV P) mod B64 in
    let '(_, carry) := mac r3 k (l0 M) 0 in
    let '(r4, carry) := mac r4 k (l1 M) carry in
    let '(r5, carry) := mac r5 k (l2 M) carry in
    let '(r6, carry) := mac r6 k (l3 M) carry in
    let '(r7, carry) := mac r7 k (l4 M) carry in
    let '(r8, _) := adc r8 carry2 carry in
    sub (Fe r4 r5 r6 r7 r8) M.

  (** scalar.rs:731-766 *)
  Definition mul (a b : fe) : fe :=
    let '(r0, carry) := mac 0 (l0 a) (l0 b) 0 in
    let '(r1, carry) := mac 0 (l0 a) (l1 b) carry in
    let '(r2, carry) := mac 0 (l0 a) (l2 b) carry in
    let '(r3, carry) := mac 0 (l0 a) (l3 b) carry in
    let '(r4, r5) := mac 0 (l0 a) (l4 b) carry in
    let '(r1, carry) := mac r1 (l1 a) (l0 b) 0 in
    let '(r2, carry) := mac r2 (l1 a) (l1 b) carry in
    let '(r3, carry) := mac r3 (l1 a) (l2 b) carry in
    let '(r4, carry) := mac r4 (l1 a) (l3 b) carry in
    let '(r5, r6) := mac r5 (l1 a) (l4 b) carry in
    let '(r2, carry) := mac r2 (l2 a) (l0 b) 0 in
    let '(r3, carry) := mac r3 (l2 a) (l1 b) carry in
    let '(r4, carry) := mac r4 (l2 a) (l2 b) carry in
    let '(r5, carry) := mac r5 (l2 a) (l3 b) carry in
    let '(r6, r7) := mac r6 (l2 a) (l4 b) carry in
    let '(r3, carry) := mac r3 (l3 a) (l0 b) 0 in
    let '(r4, carry) := mac r4 (l3 a) (l1 b) carry in
    let '(r5, carry) := mac r5 (l3 a) (l2 b) carry in
    let '(r6, carry) := mac r6 (l3 a) (l3 b) carry in
    let '(r7, r8) := mac r7 (l3 a) (l4 b) carry in
    let '(r4, carry) := mac r4 (l4 a) (l0 b) 0 in
    let '(r5, carry) := mac r5 (l4 a) (l1 b) carry in
    let '(r6, carry) := mac r6 (l4 a) (l2 b) carry in
    let '(r7, carry) := mac r7 (l4 a) (l3 b) carry in
    let '(r8, _) := mac r8 (l4 a) (l4 b) carry in
    montgomery_reduce r0 r1 r2 r3 r4 r5 r6 r7 r8.

  (** scalar.rs:542-570; [shl1 x] is [x << 1] on u64 *)
  Definition shl1 (x : Z) : Z := (2 * x) mod B64.
  Definition square (a : fe) : fe :=
    let '(r1, carry) := mac 0 (l0 a) (l1 a) 0 in
    let '(r2, carry) := mac 0 (l0 a) (l2 a) carry in
    let '(r3, r4) := mac 0 (l0 a) (l3 a) carry in
    let '(r3, carry) := mac r3 (l1 a) (l2 a) 0 in
    let '(r4, r5) := mac r4 (l1 a) (l3 a) carry in
    let '(r5, r6) := mac r5 (l2 a) (l3 a) 0 in
    let r7 := r6 / 2 ^ 63 in
    let r6 := Z.lor (shl1 r6) (r5 / 2 ^ 63) in
    let r5 := Z.lor (shl1 r5) (r4 / 2 ^ 63) in
    let r4 := Z.lor (shl1 r4) (r3 / 2 ^ 63) in
    let r3 := Z.lor (shl1 r3) (r2 / 2 ^ 63) in
    let r2 := Z.lor (shl1 r2) (r1 / 2 ^ 63) in
    let r1 := shl1 r1 in
    let '(r0, carry) := mac 0 (l0 a) (l0 a) 0 in
    let '(r1, carry) := adc 0 r1 carry in
    let '(r2, carry) := mac r2 (l1 a) (l1 a) carry in
    let '(r3, carry) := adc 0 r3 carry in
    let '(r4, carry) := mac r4 (l2 a) (l2 a) carry in
    let '(r5, carry) := adc 0 r5 carry in
    let '(r6, carry) := mac r6 (l3 a) (l3 a) carry in
    let '(r7, _) := adc 0 r7 carry in
    montgomery_reduce r0 r1 r2 r3 r4 r5 r6 r7 0.

  (** scalar.rs:428-436 *)
  Definition zero : fe := Fe 0 0 0 0 0.
  Definition one : fe := R P.
  (** scalar.rs:448-451 *)
  Definition double (a : fe) : fe := add a a.

  (** scalar.rs:272-286; only the four low limbs are compared *)
  Definition eqb (a b : fe) : bool :=
    (l0 a =? l0 b) && (l1 a =? l1 b) && (l2 a =? l2 b) && (l3 a =? l3 b).

  (** scalar.rs:288-298 *)
  Definition conditional_select (a b : fe) (choice : bool) : fe := if choice then b else a.

  (** scalar.rs:536-538 *)
  Definition from_raw (v0 v1 v2 v3 : Z) : fe := mul (Fe v0 v1 v2 v3 0) (R2 P).
  (** scalar.rs:266-270 *)
  Definition from_u64 (v : Z) : fe := mul (Fe v 0 0 0 0) (R2 P).

  (** scalar.rs:514-532 *)
  Definition from_u512 (a0 a1 a2 a3 a4 a5 a6 a7 : Z) : fe :=
    add (mul (Fe a0 a1 a2 a3 0) (R2 P)) (mul (Fe a4 a5 a6 a7 0) (R3 P)).
  (** scalar.rs:501-512; argument: the 64 bytes *)
  Definition from_bytes_wide (bs : list Z) : fe :=
    from_u512 (word bs 0 8) (word bs 8 16) (word bs 16 24) (word bs 24 32)
              (word bs 32 40) (word bs 40 48) (word bs 48 56) (word bs 56 64).
  (** scalar.rs:438-444; argument: the eight words drawn from the generator *)
  Definition random (w0 w1 w2 w3 w4 w5 w6 w7 : Z) : fe :=
    from_u512 w0 w1 w2 w3 w4 w5 w6 w7.

  (** scalar.rs:455-479; argument: the 32 bytes; [CtOption] is an option *)
  Definition from_bytes (bs : list Z) : option fe :=
    let t0 := word bs 0 8 in
    let t1 := word bs 8 16 in
    let t2 := word bs 16 24 in
    let t3 := word bs 24 32 in
    let '(_, borrow) := sbb t0 (l0 M) 0 in
    let '(_, borrow) := sbb t1 (l1 M) borrow in
    let '(_, borrow) := sbb t2 (l2 M) borrow in
    let '(_, borrow) := sbb t3 (l3 M) borrow in
    let is_some := Z.land (borrow mod 256) 1 in
    if is_some =? 1 then Some (mul (Fe t0 t1 t2 t3 0) (R2 P)) else None.

  (** scalar.rs:483-497 *)
  Definition to_bytes (a : fe) : list Z :=
    let t := montgomery_reduce (l0 a) (l1 a) (l2 a) (l3 a) (l4 a) 0 0 0 0 in
    le_bytes 8 (l0 t) ++ le_bytes 8 (l1 t) ++ le_bytes 8 (l2 t) ++ le_bytes 8 (l3 t).

  (** field_secp.rs:1002-1016, field_secq.rs:331-345 *)
  Definition to_be_bytes (a : fe) : list Z :=
    let t := montgomery_reduce (l0 a) (l1 a) (l2 a) (l3 a) (l4 a) 0 0 0 0 in
    rev (le_bytes 8 (l3 t)) ++ rev (le_bytes 8 (l2 t)) ++ rev (le_bytes 8 (l1 t)) ++ rev (le_bytes 8 (l0 t)).

  (** field_secp.rs:1056-1066, field_secq.rs:1052-1065 *)
  Definition from_sec1 (bs : list Z) : option fe := from_bytes (rev bs).

  (** field_secp.rs:429-435, field_secq.rs:480-486 *)
  Definition is_odd (a : fe) : bool :=
    let v := montgomery_reduce (l0 a) (l1 a) (l2 a) (l3 a) (l4 a) 0 0 0 0 in
    Z.land (l0 v mod 256) 1 =? 1.

  (** scalar.rs:574-586 and 593-605 (the two bodies differ only in constant-time
      selection): most significant word first, most significant bit first *)
  Definition pow_step (a : fe) (e : Z) (res : fe) (i : nat) : fe :=
    let res := square res in
    conditional_select res (mul res a) (Z.land (Z.shiftr e (Z.of_nat i)) 1 =? 1).
  Definition pow_word (a : fe) (res : fe) (e : Z) : fe :=
    fold_left (pow_step a e) (rev (seq 0 64)) res.
  Definition pow (a : fe) (by_ : list Z) : fe :=
    fold_left (pow_word a) (rev by_) one.
  Definition pow_vartime_step (a : fe) (e : Z) (res : fe) (i : nat) : fe :=
    let res := square res in
    if Z.land (Z.shiftr e (Z.of_nat i)) 1 =? 1 then mul res a else res.
  Definition pow_vartime (a : fe) (by_ : list Z) : fe :=
    fold_left (fun res e => fold_left (pow_vartime_step a e) (rev (seq 0 64)) res) (rev by_) one.
  (** field_secp.rs:734-744, field_secq.rs:770-780; little-endian target *)
  Definition pow_by_self (a e : fe) : fe :=
    let bs := to_bytes e in
    pow a [word bs 0 8; word bs 8 16; word bs 16 24; word bs 24 32].

  (** field_secp.rs:611-617 *)
  Fixpoint pow2k (a : fe) (k : nat) : fe :=
    match k with O => a | S k' => pow2k (square a) k' end.

  (** scalar.rs:607-626.  [modinv] stands for [num_bigint_dig::ModInverse] with the
      modulus given by the hex literal; a dependency, so an oracle. *)
  Definition invert (modinv : Z -> option Z) (a : fe) : option fe :=
    match modinv (of_le (to_bytes a)) with
    | Some v => Some (from_bytes_wide (le_bytes 64 v))
    | None => None
    end.

  (** scalar.rs:628-675: forward pass recording prefix products, one inversion,
      backward pass.  [None] of the inversion is a panic ([unwrap]). *)
  Fixpoint bi_fwd (acc : fe) (l : list fe) : list fe * fe :=
    match l with
    | [] => ([], acc)
    | x :: t => let '(s, a) := bi_fwd (mul acc x) t in (acc :: s, a)
    end.
  Fixpoint bi_bwd (acc : fe) (l : list (fe * fe)) : list fe :=
    match l with
    | [] => []
    | (x, s) :: t => mul acc s :: bi_bwd (mul acc x) t
    end.
  Definition batch_invert (inv : fe -> option fe) (l : list fe) : res (list fe * fe) :=
    let '(scratch, acc) := bi_fwd one l in
    match inv acc with
    | None => Panic
    | Some acc => Ok (rev (bi_bwd acc (rev (combine l scratch))), acc)
    end.

  (** scalar.rs:395-417 *)
  Definition product (l : list fe) : fe := fold_left mul l one.
  Definition sum (l : list fe) : fe := fold_left add l zero.
End Ops.

(** field_secp.rs:381-399: the option is always [Some] ([Choice::from(1)]) *)
Definition secp_sqrt (P : params) (a : fe) : option fe :=
  let mul := mul P in let pow2k := pow2k P in
  let x2 := mul (pow2k a 1%nat) a in
  let x3 := mul (pow2k x2 1%nat) a in
  let x6 := mul (pow2k x3 3%nat) x3 in
  let x9 := mul (pow2k x6 3%nat) x3 in
  let x11 := mul (pow2k x9 2%nat) x2 in
  let x22 := mul (pow2k x11 11%nat) x11 in
  let x44 := mul (pow2k x22 22%nat) x22 in
  let x88 := mul (pow2k x44 44%nat) x44 in
  let x176 := mul (pow2k x88 88%nat) x88 in
  let x220 := mul (pow2k x176 44%nat) x44 in
  let x223 := mul (pow2k x220 3%nat) x3 in
  Some (pow2k (mul (pow2k (mul (pow2k x223 23%nat) x22) 6%nat) x2) 2%nat).

(** field_secq.rs:797-845: addition chain; [None] exactly on zero *)
Definition secq_invert (P : params) (a : fe) : option fe :=
  let mul := mul P in let pow2k := pow2k P in
  let x_1 := a in
  let x_10 := pow2k a 1%nat in
  let x_11 := mul x_10 x_1 in
  let x_101 := mul x_10 x_11 in
  let x_111 := mul x_10 x_101 in
  let x_1001 := mul x_10 x_111 in
  let x_1011 := mul x_10 x_1001 in
  let x_1101 := mul x_10 x_1011 in
  let x6 := mul (pow2k x_1101 2%nat) x_1011 in
  let x8 := mul (pow2k x6 2%nat) x_11 in
  let x14 := mul (pow2k x8 6%nat) x6 in
  let x28 := mul (pow2k x14 14%nat) x14 in
  let x56 := mul (pow2k x28 28%nat) x28 in
  let r := mul (pow2k x56 56%nat) x56 in
  let r := mul (pow2k r 14%nat) x14 in
  let r := mul (pow2k r 3%nat) x_101 in
  let r := mul (pow2k r 4%nat) x_111 in
  let r := mul (pow2k r 4%nat) x_101 in
  let r := mul (pow2k r 5%nat) x_1011 in
  let r := mul (pow2k r 4%nat) x_1011 in
  let r := mul (pow2k r 4%nat) x_111 in
  let r := mul (pow2k r 5%nat) x_111 in
  let r := mul (pow2k r 6%nat) x_1101 in
  let r := mul (pow2k r 4%nat) x_101 in
  let r := mul (pow2k r 3%nat) x_111 in
  let r := mul (pow2k r 5%nat) x_1001 in
  let r := mul (pow2k r 6%nat) x_101 in
  let r := mul (pow2k r 10%nat) x_111 in
  let r := mul (pow2k r 4%nat) x_111 in
  let r := mul (pow2k r 9%nat) x8 in
  let r := mul (pow2k r 5%nat) x_1001 in
  let r := mul (pow2k r 6%nat) x_1011 in
  let r := mul (pow2k r 4%nat) x_1101 in
  let r := mul (pow2k r 5%nat) x_11 in
  let r := mul (pow2k r 6%nat) x_1101 in
  let r := mul (pow2k r 10%nat) x_1101 in
  let r := mul (pow2k r 4%nat) x_1001 in
  let r := mul (pow2k r 6%nat) x_1 in
  let r := mul (pow2k r 8%nat) x6 in
  if eqb a (Fe 0 0 0 0 0) then None else Some r.

(** field_secq.rs:445-450: delegates to [k256::Scalar::sqrt] (a dependency, the
    oracle [ksqrt] on canonical integers); both [unwrap]s may panic *)
Definition secq_sqrt (P : params) (ksqrt : Z -> option Z) (a : fe) : res (option fe) :=
  match ksqrt (of_le (rev (to_be_bytes P a))) with
  | None => Ok None
  | Some s => match from_sec1 P (rev (le_bytes 32 s)) with
              | Some r => Ok (Some r)
              | None => Panic
              end
  end.

(** serde: scalar.rs:206-253.  The byte sequence is what the format carries. *)
Definition scalar_serialize (P : params) (a : fe) : list Z := to_bytes P a.
(** visit_seq: [unwrap] on a missing byte panics *)
Definition visit_seq (P : params) (bs : list Z) : res fe :=
  if Nat.leb 32 (length bs)
  then Ok (from_raw P (word bs 0 8) (word bs 8 16) (word bs 16 24) (word bs 24 32))
  else Panic.
Definition scalar_deserialize := visit_seq.
(** field_secp.rs:284-330, field_secq.rs:348-394: the five raw limbs are written *)
Definition fe_serialize (a : fe) : list Z :=
  le_bytes 8 (l0 a) ++ le_bytes 8 (l1 a) ++ le_bytes 8 (l2 a) ++ le_bytes 8 (l3 a) ++ le_bytes 8 (l4 a).
Definition fe_deserialize := visit_seq.

(** The three sets of constants. *)
(** scalar.rs:302-386 *)
Definition SCALAR : params := MkParams
  (Fe 0xfffffffefffffc2f 0xffffffffffffffff 0xffffffffffffffff 0xffffffffffffffff 0)
  0xd838091dd2253531
  (Fe 0x00000001000003d1 0 0 0 0)
  (Fe 0x000007a2000e90a1 0x0000000000000001 0 0 0)
  (Fe 0x002bb1e33795f671 0x0000000100000b73 0 0 0).
(** field_secp.rs:481-568 *)
Definition SECP : params := MkParams
  (Fe 0xfffffffefffffc2f 0xffffffffffffffff 0xffffffffffffffff 0xffffffffffffffff 0)
  0xd838091dd2253531
  (Fe 0x00000001000003d1 0 0 0 0)
  (Fe 0x000007a2000e90a1 0x0000000000000001 0 0 0)
  (Fe 0x002bb1e33795f671 0x0000000100000b73 0 0 0).
(** field_secq.rs:532-619 *)
Definition SECQ : params := MkParams
  (Fe 0xbfd25e8cd0364141 0xbaaedce6af48a03b 0xfffffffffffffffe 0xffffffffffffffff 0)
  0x4b0dff665588b13f
  (Fe 0x402da1732fc9bebf 0x4551231950b75fc4 0x0000000000000001 0 0)
  (Fe 0x896cf21467d7d140 0x741496c20e7cf878 0xe697f5e45bcd07c6 0x9d671cd581c69bc5 0)
  (Fe 0x7bc0cfe0e9ff41ed 0x0017648444d4322c 0xb1b31347f1d0b2da 0x555d800c18ef116d 0).
