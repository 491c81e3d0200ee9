(** Property C60: the Merkle tree of the TypeScript library.

    [built poseidon_hash depth t l] (TreeSpec.v): t is what a new tree has become after some
    history of insertions and deletions, and l is the list of leaves this history
    describes: insertions append, deletions write zero, and a call that cannot be served
    throws and changes nothing. *)
From Coq Require Import ZArith List Bool Lia.
From Verif Require Import Base Primes Field Zq PosModel PosSpec PosApi TsModel WasmModel TreeModel TreeSpec TreeApi.
Import ListNotations.
Local Open Scope Z_scope.

(** Any history: every call returns or throws as described, [leaves()] is the list, and
    [root()] is the Poseidon root of the perfect tree over the list padded with zeros. *)
Theorem C60_history : forall depth calls, (1 <= depth <= 32)%nat -> Forall leaf_ok calls ->
  exists t0, tree_new poseidon_hash depth = Ok t0 /\
    let (t, results) := tree_run poseidon_hash t0 calls in
    let (l, expected) := calls_effect depth [] calls in
    results = expected /\ tree_leaves t = map Some l /\ tree_root t = zval (merkle_root pos2 depth l).
Proof. exact history. Qed.
Print Assumptions C60_history.

(** The depths a tree can have. *)
Theorem C60_depth : forall depth, (exists t, tree_new poseidon_hash depth = Ok t) <-> (1 <= depth <= 32)%nat.
Proof. exact depths. Qed.
Print Assumptions C60_depth.

(** A call that throws for want of room or of a leaf leaves the tree as it was. *)
Theorem C60_failed_call : forall depth t l c, built poseidon_hash depth t l -> leaf_ok c ->
  call_effect depth l c = None -> tree_do poseidon_hash t c = (t, Panic).
Proof. exact failed_call. Qed.
Print Assumptions C60_failed_call.

(** [createProof] answers exactly for the indices of leaves.  The proof has the tree's root
    and the binary digits of the index, [verifyProof] accepts it with the leaf, and so
    does the circuit: on the same path and siblings it computes the same root. *)
Theorem C60_create : forall depth t l i, built poseidon_hash depth t l ->
  if (0 <=? i) && (i <? Z.of_nat (length l)) then
    exists proof bits sibs, tree_createProof t i = Ok proof /\
      mp_root proof = tree_root t /\ mp_siblings proof = singles sibs /\ mp_path proof = map Z.b2z bits /\
      Z.of_nat (index_of bits) = i /\ length bits = depth /\ length sibs = depth /\
      (forall t', tree_verifyProof poseidon_hash t' proof (nth (Z.to_nat i) l 0) = Ok true) /\
      merkle cc_poseidon depth (fp (nth (Z.to_nat i) l 0)) (map fp (mp_path proof)) sibs = Some (fp (mp_root proof))
  else tree_createProof t i = Panic.
Proof. exact created. Qed.
Print Assumptions C60_create.

(** A proof with the tree's root and as many siblings as the tree has levels, accepted by
    [verifyProof], is about the leaf at the position its path indices spell (zero
    past the last leaf), or shows two inputs of the hash that collide. *)
Theorem C60_verify_sound : forall depth t l t' proof leaf, built poseidon_hash depth t l ->
  mp_root proof = tree_root t -> length (mp_siblings proof) = depth -> Forall (Forall fits) (mp_siblings proof) -> 0 <= leaf < 2 ^ 256 ->
  tree_verifyProof poseidon_hash t' proof leaf = Ok true ->
  let bits := directions depth (mp_path proof) in
  exists sibs, mp_siblings proof = singles sibs /\
    (leaf = nth (index_of bits) l 0 \/
     collide pos2 (path_inputs pos2 (fp leaf) bits sibs)
       (path_inputs pos2 (padded l (index_of bits)) bits (siblings pos2 (padded l) 0 bits))).
Proof. exact verify_sound. Qed.
Print Assumptions C60_verify_sound.

(** [indexOf] finds the first position of a leaf, or returns -1. *)
Theorem C60_index_of : forall depth t l x, built poseidon_hash depth t l ->
  (tree_indexOf t x = -1 /\ ~ In x l) \/
  exists j, tree_indexOf t x = Z.of_nat j /\ (j < length l)%nat /\ nth j l 0 = x /\ forall k, (k < j)%nat -> nth k l 0 <> x.
Proof. exact first_index. Qed.
Print Assumptions C60_index_of.

(** Refuted: "verifyProof tells whether a leaf is in this tree".  The root compared is the
    one in the proof: for every tree and every number there is a proof it accepts. *)
Theorem C60_verify_root_refuted : forall t x, exists proof, tree_verifyProof poseidon_hash t proof x = Ok true.
Proof. exact verify_any_leaf. Qed.
Print Assumptions C60_verify_root_refuted.

(** Refuted even when the caller compares the roots: the number of levels is not
    checked, and an inner node is accepted as a leaf. *)
Theorem C60_verify_depth_refuted : forall depth t l, built poseidon_hash depth t l ->
  exists proof, mp_root proof = tree_root t /\
    tree_verifyProof poseidon_hash t proof (zval (pos2 (padded l 0) (padded l 1))) = Ok true.
Proof. exact verify_inner. Qed.
Print Assumptions C60_verify_depth_refuted.

(** Refuted: "an insertion that throws changes nothing".  A leaf that is not a field element
    makes the hash throw after it has been stored: [leaves()] holds it and the root
    does not; if it is a left child, inserting a good leaf next fails in the same way. *)
Theorem C60_bad_leaf_refuted : forall depth t l x, built poseidon_hash depth t l ->
  Z.of_nat (length l) < 2 ^ Z.of_nat depth -> p <= x < 2 ^ 256 ->
  exists t', tree_insert poseidon_hash t x = (t', Panic) /\
    tree_leaves t' = map Some (l ++ [x]) /\ tree_root t' = tree_root t /\
    (Nat.even (length l) = true -> forall y, 0 <= y < p ->
       exists t'', tree_insert poseidon_hash t' y = (t'', Panic) /\
         tree_leaves t'' = map Some (l ++ [x; y]) /\ tree_root t'' = tree_root t).
Proof. exact bad_leaf. Qed.
Print Assumptions C60_bad_leaf_refuted.

(** Two insertions fill a tree of depth 1; then a third insertion, a deletion, and a deletion
    out of range. *)
Example C60_case : exists t,
  built poseidon_hash 1 t [0; 7] /\
  fst (calls_effect 1 [] [Insert 5; Insert 7; Insert 9; Delete 0; Delete 2]) = [0; 7] /\
  snd (calls_effect 1 [] [Insert 5; Insert 7; Insert 9; Delete 0; Delete 2]) = [Ok tt; Ok tt; Panic; Ok tt; Panic] /\
  tree_root t = zval (pos2 (fp 0) (fp 7)) /\ tree_indexOf t 7 = 1 /\
  tree_createProof t 1 = Ok {| mp_root := tree_root t; mp_siblings := [[Some 0]]; mp_path := [1] |}.
Proof.
  assert (D : (1 <= 1 <= 32)%nat) by lia.
  assert (F : Forall leaf_ok [Insert 5; Insert 7; Insert 9; Delete 0; Delete 2]) by (repeat constructor; (lia || reflexivity)).
  destruct (C60_history 1 _ D F) as (t0 & E & H).
  exists (fst (tree_run poseidon_hash t0 [Insert 5; Insert 7; Insert 9; Delete 0; Delete 2])).
  assert (B : built poseidon_hash 1 (fst (tree_run poseidon_hash t0 [Insert 5; Insert 7; Insert 9; Delete 0; Delete 2])) [0; 7]).
  { exists t0, [Insert 5; Insert 7; Insert 9; Delete 0; Delete 2]. split; [exact E|]. split; [exact F|]. split; reflexivity. }
  split; [exact B|]. split; [reflexivity|]. split; [reflexivity|].
  destruct (tree_run poseidon_hash t0 _) as [t rs]. cbn [fst] in B |- *. destruct H as (_ & L & R).
  split; [rewrite R; apply (f_equal (@zval p)); unfold merkle_root; rewrite <- (inner_node pos2); apply f_equal2; reflexivity|].
  split; [unfold tree_indexOf, tree_leaves in *; rewrite L; reflexivity|].
  pose proof (C60_create 1 t [0; 7] 1 B) as C. cbn [andb Z.leb Z.ltb Z.compare length Z.of_nat Pos.of_succ_nat Pos.compare Pos.compare_cont Pos.succ] in C.
  destruct C as (pr & bits & sibs & Ec & Er & Es & Ep & Ei & Lb & Ls & V & M).
  destruct pr as [root si pa]. cbn [mp_root mp_siblings mp_path] in *. subst root si pa. clear V M R.
  destruct bits as [|b [|? ?]]; try discriminate Lb. destruct sibs as [|s [|? ?]]; try discriminate Ls.
  destruct b; [|discriminate Ei]. rewrite Ec. cbn [singles map Z.b2z]. do 4 f_equal.
  unfold tree_createProof in Ec. destruct (_ || _); [discriminate|]. clear -Ec L. unfold tree_leaves, tree_level0 in L.
  destruct t as [zs nodes rt]. cbn [t_zeroes t_nodes t_root] in *. destruct nodes as [|a nodes]; [discriminate|]. cbn [nth] in L. subst a.
  destruct zs as [|z zs]; [discriminate|]. cbn in Ec. injection Ec as Ec. symmetry. congruence.
Qed.
