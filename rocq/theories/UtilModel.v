(** Model of fromSig (packages/lib/src/helpers/utils.ts:64-69). *)
From Coq Require Import ZArith List Bool.
From Verif Require Import Base TsModel.
Import ListNotations.
Local Open Scope Z_scope.

(** @ethereumjs/util 8.0.3 (fromRpcSig), a dependency, from its published source.  The
    string has been decoded to bytes already; [toBuffer] throws on a string that is not
    hexadecimal with the prefix 0x, which is not modelled.  From 65 bytes on, everything
    after byte 64 is the recovery value; 64 bytes are the compact form of EIP-2098, whose
    recovery bit is the top bit of s; other lengths throw. *)
Definition fromRpcSig (b : list Z) : res (list Z * list Z * Z) :=
  let fix_v v := if v <? 27 then v + 27 else v in
  if Nat.leb 65 (length b) then
    do v <- bytesToBigInt (skipn 64 b);
    Ok (js_slice 0 32 b, js_slice 32 64 b, fix_v v)
  else if Nat.eqb (length b) 64 then
    let s := js_slice 32 64 b in
    Ok (js_slice 0 32 b, match s with x :: t => x mod 128 :: t | [] => [] end, fix_v (Z.shiftr (nth 32 b 0) 7))
  else Panic.

(** utils.ts:64-69 *)
Definition fromSig (b : list Z) : res (Z * Z * Z) :=
  do x <- fromRpcSig b;
  let '(r, s, v) := x in
  do r <- bigint_of_hex (buffer_hex r);
  do s <- bigint_of_hex (buffer_hex s);
  Ok (r, s, v).
