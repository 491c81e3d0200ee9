(** A small field, as a module over itself, for examples that run whole protocols. *)
From Coq Require Import String List ZArith Bool.
From Verif Require Import Base Fermat Field Zq CommitModel SigmaModel.
Import ListNotations.

Lemma prime_65537 : Znumtheory.prime 65537.
Proof. apply small_prime. vm_compute. reflexivity. Qed.
Definition Fs : Fld := ZqF 65537 prime_65537.
Definition fs (a : Z) : Fs := zof 65537 prime_65537 a.
Definition sG : Mod Fs := self_mod Fs.
Definition seqb (a b : option Fs) : bool := match a, b with Some x, Some y => feqb x y | None, None => true | _, _ => false end.
Lemma seqb_spec a b : reflect (a = b) (seqb a b).
Proof. destruct a as [a|], b as [b|]; unfold seqb; try (constructor; congruence). destruct (feqb_spec Fs a b); constructor; congruence. Qed.
Definition sE : Enc sG := MkEnc Fs sG (option Fs) (fun g => Some g) (fun e => e) (fun g => eq_refl) seqb seqb_spec.
Definition sH (l : log sE) : Fs := fs (Z.of_nat (1 + length l)).
Definition sStream (i : nat) : sG := fs (Z.of_nat (3 + 2 * i)).
Definition sparse_z (z : Z) : option Fs := if (0 <=? z)%Z && (z <? 65537)%Z then Some (fs z) else None.
