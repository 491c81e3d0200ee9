(** Vocabulary for the statements about what can be extracted from a prover of the
    logarithmic dot-product proof that is run again with other challenges. *)
From Coq Require Import String List Arith Bool.
From Verif Require Import Base Field Vec CommitModel SigmaModel CommitSpec.
Import ListNotations.

Section EvalSpec.
  Context {K : Fld} {G : Mod K} {E : Enc G}.
  Local Open Scope fld_scope.

  (** a verifier that draws its challenges from a list: challenge number i after the
      history [tr] is entry i of [cs] *)
  Definition is_chal (m : msg E) : bool := match m with MChal _ => true | _ => false end.
  Definition asked (l : log E) : nat := length (filter is_chal l).
  Definition coins (tr : log E) (cs : list K) (l : log E) : K := nth (asked l - asked tr - 1) cs 0.

  (** a prover, after the first challenge: the points L and R of a round given the
      challenges of the rounds before it, the points delta and beta given those of all
      rounds, and the scalars z1 and z2 given the last challenge too *)
  Record strategy : Type := MkStrategy
    { st_round : list K -> E * E; st_last : list K -> E * E; st_resp : list K -> K -> K * K }.
  (** the points of the rounds when the challenges before them were [pre] and those of
      the rounds are [us] *)
  Fixpoint rounds (s : strategy) (pre us : list K) : list (E * E) :=
    match us with [] => [] | u :: t => st_round s pre :: rounds s (pre ++ [u]) t end.
  (** the proof sent when the rounds' challenges are [us] and the last one is [c]; it has
      as many points R as points L *)
  Definition sends (s : strategy) (us : list K) (c : K) : lproof E :=
    MkLP (MkBP (map fst (rounds s [] us)) (map snd (rounds s [] us)))
      (fst (st_last s us)) (snd (st_last s us)) (fst (st_resp s us c)) (snd (st_resp s us c)).

  (** the challenges of a set of runs: three for every round, two at the end *)
  Inductive ctree : Type := CLeaf (c c' : K) | CNode (u1 u2 u3 : K) (t1 t2 t3 : ctree).
  (** every run of a tree of [k] rounds satisfies [acc]; challenges that follow the same
      history differ, those of a round in their squares, and the last scalar of the
      verifier ([ahat]) is not zero *)
  Fixpoint all_runs (acc : list K -> K -> Prop) (ahat : list K -> K) (k : nat) (us : list K) (t : ctree) : Prop :=
    match k, t with
    | O, CLeaf c c' => c <> c' /\ ahat us <> 0 /\ acc us c /\ acc us c'
    | S k', CNode u1 u2 u3 t1 t2 t3 =>
        (u1 <> 0 /\ u2 <> 0 /\ u3 <> 0) /\ (u1 * u1 <> u2 * u2 /\ u1 * u1 <> u3 * u3 /\ u2 * u2 <> u3 * u3) /\
        all_runs acc ahat k' (us ++ [u1]) t1 /\ all_runs acc ahat k' (us ++ [u2]) t2 /\ all_runs acc ahat k' (us ++ [u3]) t3
    | _, _ => False
    end.
  (** the scalar the verifier multiplies with: the inner product of [a] with the s_i *)
  Definition last_scalar (a us : list K) : K := dot a (tab (length a) (sval us)).

  (** the weight of the run with [v1] when the three squares are [v1], [v2], [v3] *)
  Definition weight (v1 v2 v3 : K) : K := - (v1 * (v2 + v3)) * finv ((v1 - v2) * (v1 - v3)).
  (** a vector of the next round, in the generators of this one *)
  Definition unfold_vec (u : K) (x : list K) : list K := map (fmul (finv u)) x ++ map (fmul u) x.
  (** the vector and the blind computed from the answers of all runs *)
  Fixpoint extract (s : strategy) (ahat : list K -> K) (us : list K) (t : ctree) : list K * K :=
    match t with
    | CLeaf c c' =>
        let e := finv ((c - c') * ahat us) in
        ([e * (fst (st_resp s us c) - fst (st_resp s us c'))], e * (snd (st_resp s us c) - snd (st_resp s us c')))
    | CNode u1 u2 u3 t1 t2 t3 =>
        let '(x1, b1) := extract s ahat (us ++ [u1]) t1 in
        let '(x2, b2) := extract s ahat (us ++ [u2]) t2 in
        let '(x3, b3) := extract s ahat (us ++ [u3]) t3 in
        let w1 := weight (u1 * u1) (u2 * u2) (u3 * u3) in
        let w2 := weight (u2 * u2) (u1 * u1) (u3 * u3) in
        let w3 := weight (u3 * u3) (u1 * u1) (u2 * u2) in
        (vadd (map (fmul w1) (unfold_vec u1 x1)) (vadd (map (fmul w2) (unfold_vec u2 x2)) (map (fmul w3) (unfold_vec u3 x3))),
         w1 * b1 + (w2 * b2 + w3 * b3))
    end.
End EvalSpec.
Arguments strategy {K G} E.
