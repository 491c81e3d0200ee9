(** Model of packages/Spartan-secq/src/math.rs. *)
From Coq Require Import List Arith ZArith Lia Bool.
From Verif Require Import Base.
Import ListNotations.

(** Machine-word versions, [usize] = 64 bits, on Z. *)
(** [usize::leading_zeros] (standard library) *)
Definition leading_zeros (x : Z) : Z := (if x =? 0 then 64 else 63 - Z.log2 x)%Z.
(** [usize::is_power_of_two] (standard library): exactly one bit set *)
Definition is_power_of_two (x : Z) : bool := ((0 <? x) && (x =? 2 ^ Z.log2 x))%Z.
(** math.rs:27-35; [assert_ne!] panics on zero *)
Definition log_2_word (x : Z) : res Z :=
  if (x =? 0)%Z then Panic
  else if is_power_of_two x then Ok (leading_zeros 1 - leading_zeros x)%Z
  else Ok (leading_zeros 0 - leading_zeros x)%Z.
(** math.rs:15-18: [2usize.pow(e as u32)]; the cast truncates, overflow of the
    power panics (debug build; a release build wraps to 0) *)
Definition pow2_word (e : Z) : res Z :=
  if (e mod 2 ^ 32 <? 64)%Z then Ok (2 ^ (e mod 2 ^ 32))%Z else Panic.
(** math.rs:21-25: [1 << k] with [k >= 64] panics (debug build; a release build
    masks the shift amount) *)
Definition get_bits_word (x : Z) (num_bits : nat) : res (list bool) :=
  mapM (fun s => let k := (Z.of_nat num_bits - Z.of_nat s - 1)%Z in
                 if (k <? 64)%Z then Ok (0 <? Z.land x (Z.shiftl 1 k))%Z else Panic) (seq 0 num_bits).

(** Size arithmetic used by the rest of the model: [usize] sizes are [nat] (no
    wrap-around: a size is the length of a vector in memory). *)
Definition log_2 (x : nat) : res nat := match x with O => Panic | _ => Ok (Nat.log2_up x) end.
Definition pow2 (e : nat) : nat := Nat.pow 2 e.
Definition get_bits (x num_bits : nat) : list bool :=
  map (fun s => Nat.testbit x (num_bits - s - 1)) (seq 0 num_bits).
