(** What a constraint system means; independent of padding and of the code. *)
From Coq Require Import List Arith Bool.
From Verif Require Import Base Field Vec R1csModel.
Import ListNotations.

Section Spec.
  Variable K : Fld.
  Local Open Scope fld_scope.
  (** (M z)_i for a matrix given by triples (row, column, value); triples at the
      same position add up *)
  Definition row_val (M : list (nat * nat * K)) (i : nat) (z : list K) : K :=
    fsum (map (fun '(r, c, v) => if Nat.eqb r i then v * nth c z 0 else 0) M).
  (** entry (i, j) of the matrix *)
  Definition mat (M : list (nat * nat * K)) (i j : nat) : K :=
    fsum (map (fun '(r, c, v) => if Nat.eqb r i && Nat.eqb c j then v else 0) M).
  (** all constraints hold of z *)
  Definition sat (num_cons : nat) (A B C : list (nat * nat * K)) (z : list K) : Prop :=
    forall i, (i < num_cons)%nat -> row_val A i z * row_val B i z = row_val C i z.
  (** exactly [n] entries: cut, or extended with zeros *)
  Definition fit (n : nat) (l : list K) : list K := firstn n (l ++ repeat 0 n).

  (** the matrix as one table, row after row *)
  Definition mat_table (M : list (nat * nat * K)) (nr nc : nat) : list K :=
    concat (tab nr (fun i => tab nc (mat M i))).
  (** reading a stored matrix: its triples, and that they lie within bounds *)
  Definition triples (es : list (entry K)) : list (nat * nat * K) := map (fun e => (erow e, ecol e, eval e)) es.
  Definition ents_ok (nr nc : nat) (es : list (entry K)) : Prop :=
    forall e, In e es -> (erow e < nr)%nat /\ (ecol e < nc)%nat.
  Definition r1cs_wf (I : r1cs K) : Prop :=
    let nc := (rc_vars I + rc_inputs I + 1)%nat in
    ents_ok (rc_cons I) nc (sM (rc_A I)) /\ ents_ok (rc_cons I) nc (sM (rc_B I)) /\ ents_ok (rc_cons I) nc (sM (rc_C I)).

  Variable bytes : Type.
  Variable parse : bytes -> option K.
  (** one triple is acceptable *)
  Definition triple_ok (num_cons num_vars num_inputs : nat) (t : nat * nat * bytes) (v : nat * nat * K) : Prop :=
    fst v = fst t /\ parse (snd t) = Some (snd v) /\
    (fst (fst t) < num_cons)%nat /\ (snd (fst t) < num_vars + 1 + num_inputs)%nat.
  (** the values of a list of acceptable triples *)
  Definition triples_ok (num_cons num_vars num_inputs : nat) (T : list (nat * nat * bytes)) (V : list (nat * nat * K)) : Prop :=
    Forall2 (triple_ok num_cons num_vars num_inputs) T V.

  (** what is wrong with a triple, and with the first bad triple of a list *)
  Definition bad_triple (num_cons num_vars num_inputs : nat) (t : nat * nat * bytes) : option err :=
    if Nat.leb num_cons (fst (fst t)) || Nat.leb (num_vars + 1 + num_inputs) (snd (fst t)) then Some InvalidIndex
    else match parse (snd t) with None => Some InvalidScalar | Some _ => None end.
  Fixpoint first_bad (num_cons num_vars num_inputs : nat) (T : list (nat * nat * bytes)) : option err :=
    match T with
    | [] => None
    | t :: T' => match bad_triple num_cons num_vars num_inputs t with
                 | Some x => Some x
                 | None => first_bad num_cons num_vars num_inputs T'
                 end
    end.

  (** value of a linear combination of wires *)
  Definition lin_val (l : list (nat * K)) (w : list K) : K :=
    fsum (map (fun '(j, x) => x * nth j w 0) l).
  (** a wire assignment satisfies a circom constraint list *)
  Definition circom_sat (cs : list (list (nat * K) * list (nat * K) * list (nat * K))) (w : list K) : Prop :=
    Forall (fun '(a, b, c) => lin_val a w * lin_val b w = lin_val c w) cs.
End Spec.
(** every wire mentioned exists *)
Definition wires_ok {F : Type} (num_wires : nat) (cs : list (list (nat * F) * list (nat * F) * list (nat * F))) : Prop :=
  forall a b c, In (a, b, c) cs ->
    (forall j x, In (j, x) a -> (j < num_wires)%nat) /\ (forall j x, In (j, x) b -> (j < num_wires)%nat) /\
    (forall j x, In (j, x) c -> (j < num_wires)%nat).
(** [Q] holds of every coefficient *)
Definition coeffs {F : Type} (Q : F -> Prop) (cs : list (list (nat * F) * list (nat * F) * list (nat * F))) : Prop :=
  forall a b c, In (a, b, c) cs ->
    (forall j x, In (j, x) a -> Q x) /\ (forall j x, In (j, x) b -> Q x) /\ (forall j x, In (j, x) c -> Q x).
(** the constraints with every coefficient [x] read as [f x] *)
Definition lin_map {F G : Type} (f : F -> G) (l : list (nat * F)) : list (nat * G) := map (fun '(j, x) => (j, f x)) l.
Definition cons_map {F G : Type} (f : F -> G) (cs : list (list (nat * F) * list (nat * F) * list (nat * F))) :=
  map (fun '(a, b, c) => (lin_map f a, lin_map f b, lin_map f c)) cs.
Arguments row_val {K} M i z.
Arguments mat {K} M i j.
Arguments sat {K} num_cons A B C z.
Arguments fit {K} n l.
Arguments triple_ok {K bytes} parse num_cons num_vars num_inputs t v.
Arguments triples_ok {K bytes} parse num_cons num_vars num_inputs T V.
Arguments lin_val {K} l w.
Arguments circom_sat {K} cs w.
Arguments mat_table {K} M nr nc.
Arguments triples {K} es.
Arguments ents_ok {K} nr nc es.
Arguments r1cs_wf {K} I.
Arguments bad_triple {K bytes} parse num_cons num_vars num_inputs t.
Arguments first_bad {K bytes} parse num_cons num_vars num_inputs T.
