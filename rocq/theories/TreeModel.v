(** Model of packages/lib/src/helpers/tree.ts.  The class [Tree] is a wrapper of the
    binary [IncrementalMerkleTree] of @zk-kit/incremental-merkle-tree 1.0.0, which
    packages/lib/package.json names and which is not in the repository; the functions
    below marked "zk-kit" follow its published source.  The type checks of its parameters
    are left out: every argument has the type tree.ts gives it, and indices are integers.

    A JavaScript exception is [Panic].  A method that throws may already have written to
    the tree, so every method that writes returns the tree as well. *)
From Coq Require Import ZArith List Bool Arith.
From Verif Require Import Base WasmModel.
Import ListNotations.
Local Open Scope Z_scope.

(** an element of a JavaScript array of bigints: [None] is [undefined] *)
Notation elt := (option Z).

(** zk-kit: the fields of IncrementalMerkleTree.  [t_nodes] is [_nodes[0]] to
    [_nodes[depth - 1]]; the root is kept apart. *)
Record tree : Type := { t_zeroes : list Z; t_nodes : list (list elt); t_root : Z }.

(** packages/lib/src/types/index.ts:6-10 (MerkleProof) *)
Record merkle_proof : Type := { mp_root : Z; mp_siblings : list (list elt); mp_path : list Z }.

Section Tree.
  (** tree.ts:14 [poseidon.hash.bind(poseidon)] *)
  Variable hash : list Z -> res Z.

  (** the hash of an array; [bigIntToLeBytes(undefined, 32)] throws *)
  Fixpoint defined (l : list elt) : option (list Z) :=
    match l with
    | [] => Some []
    | Some x :: t => match defined t with Some r => Some (x :: r) | None => None end
    | None :: _ => None
    end.
  Definition hash_elts (l : list elt) : res Z :=
    match defined l with Some xs => hash xs | None => Panic end.

  (** zk-kit, constructor: the value of an empty subtree at each level, and the root *)
  Fixpoint zero_chain (depth : nat) (z : Z) : res (list Z * Z) :=
    match depth with
    | O => Ok ([], z)
    | S d =>
        do h <- hash [z; z];
        do zs <- zero_chain d h;
        Ok (z :: fst zs, snd zs)
    end.
  (** tree.ts:10-16; zk-kit, constructor: the depth is at most 32, and a tree without
      levels is refused *)
  Definition tree_new (depth : nat) : res tree :=
    if (depth <? 1)%nat || (32 <? depth)%nat then Panic
    else do zs <- zero_chain depth 0;
         Ok {| t_zeroes := fst zs; t_nodes := repeat [] depth; t_root := snd zs |}.

  (** [array[i] = v]: writing past the end leaves a hole *)
  Fixpoint js_write (l : list elt) (i : nat) (v : Z) : list elt :=
    match i, l with
    | O, [] => [Some v]
    | O, _ :: t => Some v :: t
    | S j, [] => None :: js_write [] j v
    | S j, x :: t => x :: js_write t j v
    end.
  (** zk-kit, insert, update and createProof: child number i of a level *)
  Definition child (zero : Z) (level : list elt) (i : nat) : elt :=
    if (i <? length level)%nat then nth i level None else Some zero.
  (** zk-kit, insert and update: the loop over the levels.  Each level is written
      before the hash is called. *)
  Fixpoint climb (zs : list Z) (nodes : list (list elt)) (index : nat) (node : Z) : list (list elt) * res Z :=
    match zs, nodes with
    | z :: zs', level :: nodes' =>
        let position := (index mod 2)%nat in
        let start := (index - position)%nat in
        let level' := js_write level index node in
        let children := map (child z level') (seq start 2) in
        match hash_elts children with
        | Ok h => let (rest, r) := climb zs' nodes' (index / 2)%nat h in (level' :: rest, r)
        | Err e => (level' :: nodes', Err e)
        | Panic => (level' :: nodes', Panic)
        end
    | _, _ => (nodes, Ok node)
    end.
  (** the root is replaced when the loop has ended *)
  Definition write_leaf (t : tree) (index : nat) (leaf : Z) : tree * res unit :=
    let (nodes, r) := climb (t_zeroes t) (t_nodes t) index leaf in
    match r with
    | Ok root => ({| t_zeroes := t_zeroes t; t_nodes := nodes; t_root := root |}, Ok tt)
    | _ => ({| t_zeroes := t_zeroes t; t_nodes := nodes; t_root := t_root t |}, Panic)
    end.
  Definition tree_level0 (t : tree) : list elt := nth 0 (t_nodes t) [].
  Definition tree_depth (t : tree) : nat := length (t_nodes t).

  (** tree.ts:18-20; zk-kit, insert *)
  Definition tree_insert (t : tree) (leaf : Z) : tree * res unit :=
    if Z.of_nat (length (tree_level0 t)) >=? 2 ^ Z.of_nat (tree_depth t) then (t, Panic)
    else write_leaf t (length (tree_level0 t)) leaf.
  (** tree.ts:22-24; zk-kit, delete and update *)
  Definition tree_delete (t : tree) (index : Z) : tree * res unit :=
    if (index <? 0) || (index >=? Z.of_nat (length (tree_level0 t))) then (t, Panic)
    else write_leaf t (Z.to_nat index) (nth 0 (t_zeroes t) 0).
  (** tree.ts:26-28 *)
  Definition tree_leaves (t : tree) : list elt := tree_level0 t.
  (** tree.ts:30-32 *)
  Definition tree_root (t : tree) : Z := t_root t.
  (** tree.ts:34-36; zk-kit, indexOf: [Array.prototype.indexOf] *)
  Fixpoint js_index_of (l : list elt) (x : Z) (i : Z) : Z :=
    match l with
    | [] => -1
    | Some y :: t => if y =? x then i else js_index_of t x (i + 1)
    | None :: t => js_index_of t x (i + 1)
    end.
  Definition tree_indexOf (t : tree) (leaf : Z) : Z := js_index_of (tree_level0 t) leaf 0.

  (** zk-kit, createProof: the loop over the levels *)
  Fixpoint proof_levels (zs : list Z) (nodes : list (list elt)) (index : nat) : list (list elt * Z) :=
    match zs, nodes with
    | z :: zs', level :: nodes' =>
        let position := (index mod 2)%nat in
        let start := (index - position)%nat in
        (map (child z level) (filter (fun i => negb (Nat.eqb i index)) (seq start 2)), Z.of_nat position)
          :: proof_levels zs' nodes' (index / 2)%nat
    | _, _ => []
    end.
  (** tree.ts:38-45; zk-kit, createProof *)
  Definition tree_createProof (t : tree) (index : Z) : res merkle_proof :=
    if (index <? 0) || (index >=? Z.of_nat (length (tree_level0 t))) then Panic
    else let l := proof_levels (t_zeroes t) (t_nodes t) (Z.to_nat index) in
         Ok {| mp_root := t_root t; mp_siblings := map fst l; mp_path := map snd l |}.

  (** [array.splice(start, 0, x)] *)
  Definition js_splice (l : list elt) (start : Z) (x : elt) : list elt :=
    let len := Z.of_nat (length l) in
    let s := Z.to_nat (if start <? 0 then Z.max (len + start) 0 else Z.min start len) in
    firstn s l ++ x :: skipn s l.
  (** zk-kit, verifyProof: the loop over the siblings; a path index that is missing is
      [undefined], which [splice] reads as 0 *)
  Fixpoint verify_levels (siblings : list (list elt)) (path : list Z) (node : Z) : res Z :=
    match siblings with
    | [] => Ok node
    | s :: siblings' =>
        do h <- hash_elts (js_splice s (hd 0 path) (Some node));
        verify_levels siblings' (tl path) h
    end.
  (** tree.ts:47-49; zk-kit, verifyProof: compared with the root in the proof.  The tree
      is not read. *)
  Definition tree_verifyProof (t : tree) (proof : merkle_proof) (leaf : Z) : res bool :=
    do node <- verify_levels (mp_siblings proof) (mp_path proof) leaf;
    Ok (mp_root proof =? node).
End Tree.

(** the calls that change a tree *)
Inductive tree_call : Type := Insert (leaf : Z) | Delete (index : Z).
Definition tree_do (hash : list Z -> res Z) (t : tree) (c : tree_call) : tree * res unit :=
  match c with Insert leaf => tree_insert hash t leaf | Delete i => tree_delete hash t i end.
(** a caller that catches every exception: the tree after the calls, and the result of
    each of them *)
Fixpoint tree_run (hash : list Z -> res Z) (t : tree) (calls : list tree_call) : tree * list (res unit) :=
  match calls with
  | [] => (t, [])
  | c :: rest =>
      let (t1, r) := tree_do hash t c in
      let (t2, rs) := tree_run hash t1 rest in (t2, r :: rs)
  end.
