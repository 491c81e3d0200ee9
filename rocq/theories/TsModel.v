(** Model of packages/lib/src/helpers/utils.ts and publicInputs.ts.

    A [bigint] is a [Z], a [Buffer] or [Uint8Array] a list of byte values, a string of
    hexadecimal characters a list of digit values in which [-1] stands for the minus
    sign.  A thrown JavaScript exception is [Panic].  The packages elliptic and bn.js
    are dependencies; what is used of them is modelled from their published source. *)
From Coq Require Import ZArith List Bool.
From Verif Require Import Base Fermat Primes Field Zq CurveSpec Secp.
Import ListNotations.
Local Open Scope Z_scope.

(** * JavaScript strings, BigInt and typed arrays *)

(** [n.toString(16)] for n >= 0; the fuel exceeds the number of digits *)
Fixpoint hex_digits (fuel : nat) (n : Z) (acc : list Z) : list Z :=
  match fuel with
  | O => acc
  | S f => if n <? 16 then n :: acc else hex_digits f (n / 16) (n mod 16 :: acc)
  end.
Definition to_hex (n : Z) : list Z :=
  let digits a := hex_digits (S (Z.to_nat (Z.log2 a))) a [] in
  if n <? 0 then -1 :: digits (- n) else digits n.
(** [s.padStart(k, "0")] *)
Definition pad_start (k : nat) (s : list Z) : list Z := repeat 0 (k - length s) ++ s.
(** [Buffer.from(s, "hex")]: decoding stops at the first pair that is not two
    hexadecimal characters; an odd last character is dropped *)
Definition is_digit (d : Z) : bool := (0 <=? d) && (d <? 16).
Fixpoint from_hex (s : list Z) : list Z :=
  match s with
  | a :: b :: t => if is_digit a && is_digit b then (16 * a + b) :: from_hex t else []
  | _ => []
  end.
(** [buffer.toString("hex")] *)
Definition buffer_hex (b : list Z) : list Z := flat_map (fun x => [x / 16; x mod 16]) b.
(** [BigInt("0x" + s)]; an empty digit string is a SyntaxError *)
Definition bigint_of_hex (s : list Z) : res Z :=
  match s with [] => Panic | _ => Ok (fold_left (fun a d => 16 * a + d) s 0) end.
(** [array.slice(i, j)] for i <= j *)
Definition js_slice (i j : nat) (b : list Z) : list Z := firstn (j - i) (skipn i b).
(** [array.set(src, off)]; a source that does not fit is a RangeError *)
Definition js_set (b src : list Z) (off : nat) : res (list Z) :=
  assert (Nat.leb (off + length src) (length b));
  Ok (firstn off b ++ src ++ skipn (off + length src) b).

(** * utils.ts *)

(** utils.ts:45-46 *)
Definition bytesToBigInt (b : list Z) : res Z := bigint_of_hex (buffer_hex b).
(** utils.ts:48-51; [reverse] works in place on an array its callers do not use again *)
Definition bytesLeToBigInt (b : list Z) : res Z := bytesToBigInt (rev b).
(** utils.ts:53-57 *)
Definition bigIntToBytes (n : Z) (size : nat) : list Z := from_hex (pad_start (size * 2) (to_hex n)).
(** utils.ts:59-62 *)
Definition bigIntToLeBytes (n : Z) (size : nat) : list Z := rev (bigIntToBytes n size).

(** * publicInputs.ts *)

(** publicInputs.ts:19-38 *)
Record circuit_pub : Type := MkCPI { cp_root : Z; cp_Tx : Z; cp_Ty : Z; cp_Ux : Z; cp_Uy : Z }.
(** publicInputs.ts:40-50 *)
Definition cpi_serialize (c : circuit_pub) : res (list Z) :=
  let s := repeat 0 (32 * 5) in
  do s <- js_set s (bigIntToBytes (cp_root c) 32) 0;
  do s <- js_set s (bigIntToBytes (cp_Tx c) 32) 32;
  do s <- js_set s (bigIntToBytes (cp_Ty c) 32) 64;
  do s <- js_set s (bigIntToBytes (cp_Ux c) 32) 96;
  js_set s (bigIntToBytes (cp_Uy c) 32) 128.
(** publicInputs.ts:52-60 *)
Definition cpi_deserialize (b : list Z) : res circuit_pub :=
  do root <- bytesToBigInt (js_slice 0 32 b);
  do Tx <- bytesToBigInt (js_slice 32 64 b);
  do Ty <- bytesToBigInt (js_slice 64 96 b);
  do Ux <- bytesToBigInt (js_slice 96 128 b);
  do Uy <- bytesToBigInt (js_slice 128 160 b);
  Ok (MkCPI root Tx Ty Ux Uy).

(** publicInputs.ts:66-82 *)
Record public_input : Type := MkPI { pi_r : Z; pi_rV : Z; pi_msgHash : list Z; pi_circuit : circuit_pub }.
(** publicInputs.ts:84-96 *)
Definition pi_serialize (x : public_input) : res (list Z) :=
  do c <- cpi_serialize (pi_circuit x);
  let s := repeat 0 (32 + 1 + length (pi_msgHash x) + length c) in
  do s <- js_set s (bigIntToBytes (pi_r x) 32) 0;
  do s <- js_set s (bigIntToBytes (pi_rV x) 1) 32;
  do s <- js_set s c 33;
  js_set s (pi_msgHash x) (33 + length c).
(** publicInputs.ts:98-107; the last [slice] has no upper end *)
Definition pi_deserialize (b : list Z) : res public_input :=
  do r <- bytesToBigInt (js_slice 0 32 b);
  do rV <- bytesToBigInt (js_slice 32 33 b);
  do c <- cpi_deserialize (js_slice (32 + 1) (32 + 1 + 32 * 5) b);
  Ok (MkPI r rV (skipn (32 + 1 + 32 * 5) b) c).

(** elliptic, lib/elliptic/curve/short.js (pointFromX): x is reduced modulo p, the
    square root is a power ((p+1)/4, bn.js redSqrt), a non-residue is an error, and y
    is negated when its parity is not the requested one.  bn.js refuses to reduce a
    negative number. *)
Definition pointFromX (x : Z) (odd : bool) : res (Fp * Fp) :=
  if x <? 0 then Panic else
  let x := x mod p in
  let y2 := (x * x * x + 7) mod p in
  let y := powm p y2 ((p + 1) / 4) in
  if (y * y) mod p =? y2 then
    Ok (fp x, fp (if Bool.eqb odd (Z.odd y) then y else - y))
  else Panic.
(** bn.js (invm): the inverse modulo n; zero for a multiple of n *)
Definition invm_n (a : Z) : Z := zval (finv (fn a)).
(** bn.js: [new BN(buffer)] is the big-endian value *)
Definition bn_bytes (b : list Z) : Z := fold_left (fun a x => 256 * a + x) b 0.
(** elliptic: [getX] and [getY] of the point at infinity throw *)
Definition coords (P : option (Fp * Fp)) : res (Z * Z) :=
  match P with Some (x, y) => Ok (zval x, zval y) | None => Panic end.

(** publicInputs.ts:114-142 (computeEffEcdsaPubInput); the result is Tx, Ty, Ux, Uy.
    [%] on bigint is the remainder of the division rounded towards zero, and any value
    but zero counts as true. *)
Definition computeEff (r v : Z) (msgHash : list Z) : res (Z * Z * Z * Z) :=
  let isYOdd := negb (Z.rem (v - 27) 2 =? 0) in
  do R <- pointFromX r isYOdd;
  let rInv := invm_n r in
  let w := (- (rInv * bn_bytes msgHash)) mod n in
  let U := emul w base in
  let T := emul rInv (Some R) in
  do t <- coords T;
  do u <- coords U;
  Ok (fst t, snd t, fst u, snd u).

(** publicInputs.ts:147-166 (verifyEffEcdsaPubInput) *)
Definition verifyEff (x : public_input) : res bool :=
  do e <- computeEff (pi_r x) (pi_rV x) (pi_msgHash x);
  let '(Tx, Ty, Ux, Uy) := e in
  Ok ((Tx =? cp_Tx (pi_circuit x)) && (Ty =? cp_Ty (pi_circuit x)) &&
      (Ux =? cp_Ux (pi_circuit x)) && (Uy =? cp_Uy (pi_circuit x))).
