(** Vocabulary of the theorems about the Merkle tree of the TypeScript library. *)
From Coq Require Import ZArith List Bool.
From Verif Require Import Base Primes Field Zq PosSpec TreeModel.
Import ListNotations.
Local Open Scope Z_scope.

(** the list with element number i replaced *)
Definition replace_nth {A} (l : list A) (i : nat) (x : A) : list A := firstn i l ++ x :: skipn (S i) l.

(** What a call does to the list of leaves, or that it throws and does nothing: an
    insertion appends, and fails when there are 2^depth leaves; a deletion writes zero at
    an index of the list. *)
Definition call_effect (depth : nat) (l : list Z) (c : tree_call) : option (list Z) :=
  match c with
  | Insert leaf => if Z.of_nat (length l) <? 2 ^ Z.of_nat depth then Some (l ++ [leaf]) else None
  | Delete i => if (0 <=? i) && (i <? Z.of_nat (length l)) then Some (replace_nth l (Z.to_nat i) 0) else None
  end.
Fixpoint calls_effect (depth : nat) (l : list Z) (calls : list tree_call) : list Z * list (res unit) :=
  match calls with
  | [] => (l, [])
  | c :: rest =>
      match call_effect depth l c with
      | Some l1 => let (l2, rs) := calls_effect depth l1 rest in (l2, Ok tt :: rs)
      | None => let (l2, rs) := calls_effect depth l rest in (l2, Panic :: rs)
      end
  end.
(** inserted leaves are field elements *)
Definition leaf_ok (c : tree_call) : Prop := match c with Insert leaf => 0 <= leaf < p | Delete _ => True end.

(** the leaves of the perfect tree: zero past the end of the list *)
Definition padded (l : list Z) (i : nat) : Fp := fp (nth i l 0).
(** the root of the perfect binary tree of the given depth *)
Definition merkle_root (H : Fp -> Fp -> Fp) (depth : nat) (l : list Z) : Fp := node H (padded l) depth 0.
(** the one-element arrays of siblings of a proof *)
Definition singles (l : list Fp) : list (list elt) := map (fun x => [Some (zval x)]) l.
(** the direction that a path index means to [verifyProof] *)
Definition is_right (x : Z) : bool := 0 <? x.
(** the directions of the first n levels; a missing path index counts as 0 *)
Fixpoint directions (n : nat) (path : list Z) : list bool :=
  match n with O => [] | S m => is_right (hd 0 path) :: directions m (tl path) end.

(** t is the tree of the given depth after some history of calls with field elements, in
    which exceptions are caught, and l is the list the history describes *)
Definition built (hash : list Z -> res Z) (depth : nat) (t : tree) (l : list Z) : Prop :=
  exists t0 calls, tree_new hash depth = Ok t0 /\ Forall leaf_ok calls /\
    t = fst (tree_run hash t0 calls) /\ l = fst (calls_effect depth [] calls).
(** the integers that fit in the 32 bytes of an argument of the hash *)
Definition fits (x : elt) : Prop := match x with Some y => 0 <= y < 2 ^ 256 | None => True end.
