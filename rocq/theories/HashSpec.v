(** Vocabulary for the properties of hashing to the curve: RFC 9380 (hash-to-curve),
    section 6.6.2, in its unoptimised form, over the field of [n] elements. *)
From Coq Require Import ZArith List Bool.
Import ListNotations.
From Verif Require Import Base Limb LimbSpec Field Zq Primes CurveSpec Secq.
Local Open Scope Z_scope.

(** the field element an element of the code stands for *)
Definition fq (a : fe) : Fn := fn (fint SECQ a).
Definition fq2 (c : fe * fe) : Fn * Fn := (fq (fst c), fq (snd c)).

Definition is_square (x : Fn) : Prop := exists y : Fn, fmul y y = x.

Section RFC.
  Local Open Scope fld_scope.
  (** the curve E': y^2 = x^3 + aE x + bE and the constant zE; the numbers are those of the
      comments in affine.rs:98,109,114 *)
  Definition aE : Fn := fn 3642995984045157452672683439396299070953881827175886364060394186787010798372.
  Definition bE : Fn := fn 1771.
  Definition zE : Fn := fn (-14).
  Definition gE (x : Fn) : Fn := x * x * x + aE * x + bE.

  (** steps 1-3 of the RFC *)
  Definition sswu_x1 (u : Fn) : Fn :=
    let t := zE * zE * (u * u * (u * u)) + zE * (u * u) in
    if feqb t 0 then bE / (zE * aE) else (- bE / aE) * (1 + finv t).
  Definition sswu_x2 (u : Fn) : Fn := zE * (u * u) * sswu_x1 u.

  (** steps 4-9: the first of the two candidates whose image is a square, and the root with the
      parity of [u] *)
  Definition sswu (u x y : Fn) : Prop :=
    (is_square (gE (sswu_x1 u)) -> x = sswu_x1 u) /\
    (~ is_square (gE (sswu_x1 u)) -> x = sswu_x2 u) /\
    y * y = gE x /\ Z.odd (zval y) = Z.odd (zval u).

  (** the map from E' to the curve of the library (section 6.6.3 and appendix E of the RFC), by
      its thirteen coefficients, and the value at a point *)
  Definition kZ : list Z :=
    [64328938465175664124206102782604393251576424599486057990336201745287867496854;
     79392371075506919374616234909528631555086220888939117281261965743150459327378;
     33410570268735288039557476964294325612253586549208573639818598305474279867271;
     64328938465175664124206102782604393251576424599486057990336201745287867496913;
     19778804255665101830120204133630236878750602326002629235726712839245164980380;
     91540772594639409103054982975131436560983886875107157596866012257178425955958;
     60040342567497286515925695930430767034804662959520320790980454962268676330397;
     39696185537753459687308117454764315777543110444469558640630982871575229663689;
     6713335081379860721473097193724619392092253068023198963396363978554198018990;
     72906130260532419340766916486951645685119947879417532389047695311326249829719;
     29668206383497652745180306200445355318125903489003943853590069258867747470570;
     43038139309285836462022978908018493977276532067171664025387710488498954879200;
     115792089237316195423570985008687907852837564279074904382605163141518161493581]%Z.
  Definition kq (i : nat) : Fn := nth i (map fn kZ) 1.
  Definition iso3 (x y : Fn) : Fn * Fn :=
    let x2 := x * x in let x3 := x * x * x in
    ((kq 0 * x3 + kq 1 * x2 + kq 2 * x + kq 3) / (x2 + kq 4 * x + kq 5),
     y * (kq 6 * x3 + kq 7 * x2 + kq 8 * x + kq 9) / (x3 + kq 10 * x2 + kq 11 * x + kq 12)).

  (** the hash of one 64-byte half: SSWU of the little-endian integer modulo n, then the map *)
  Definition half_hash (bs : list Z) (P : Fn * Fn) : Prop :=
    exists x y, sswu (fn (of_le bs)) x y /\ P = iso3 x y.
End RFC.
