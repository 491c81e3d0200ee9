(** Vocabulary for the statements about provers of the NIZK that answer random challenges:
    sets of challenges that are rare, coordinates of points in the generators, and provers
    as trees of messages. *)
From Coq Require Import String List Arith Bool.
From Verif Require Import Base Field Vec CommitModel SigmaModel CommitSpec SumModel NizkModel EvalSpec.
Import ListNotations.

Section Rare.
  Variable K : Fld.

  (** at most [d] elements have the property *)
  Definition few (d : nat) (B : K -> Prop) : Prop := forall l, NoDup l -> (forall x, In x l -> B x) -> (length l <= d)%nat.
  (** an event about [n] challenges drawn one after the other is rare when at every step at
      most [d] values, depending on the challenges before, can keep it possible: if every
      challenge avoids the bad values of its step, the event does not happen *)
  Fixpoint rare (d n : nat) (A : list K -> Prop) : Prop :=
    match n with
    | O => ~ A []
    | S n' => exists B, few d B /\ forall c, ~ B c -> rare d n' (fun cs => A (c :: cs))
    end.
End Rare.
Arguments few {K} d B.
Arguments rare {K} d n A.

Section AgmSpec.
  Context {K : Fld} {G : Mod K} {E : Enc G}.
  Local Open Scope fld_scope.

  (** [co i P] is the coefficient of generator number i in the representation of the point P
      that an algebraic prover has: coefficients are linear, and the first [N] generators
      are their own representations (the prover knows no relation between them) *)
  Record coordinates (N : nat) (stream : nat -> G) (co : nat -> G -> K) : Prop := MkCoord {
    co_add : forall i P Q, co i (gadd P Q) = co i P + co i Q;
    co_mul : forall i x P, co i (gmul x P) = x * co i P;
    co_gen : forall i j, (i < N)%nat -> (j < N)%nat -> co i (stream j) = if Nat.eqb i j then 1 else 0 }.

  (** the point of an encoding *)
  Definition point (e : E) : G := match decompress E e with Some P => P | None => g0 end.
  (** the vector in a list of commitments, [n] coefficients from each *)
  Definition committed (co : nat -> G -> K) (n : nat) (C : list E) : list K := concat (map (fun e => tab n (fun j => co j (point e))) C).

  (** * provers: after every message a function of the challenge that follows *)
  (** [n] rounds of the sum-check: commitment to the round's polynomial; commitment to its
      value at the challenge; the two points of the dot-product proof, after the two
      challenges that combine the claims; its scalars; then what follows, an [A] *)
  Fixpoint zk_plan (n : nat) (A : Type) : Type :=
    match n with
    | O => A
    | S n' => (E * (K -> E * (K -> K -> (E * E) * (K -> (list K * K * K) * zk_plan n' A))))%type
    end.
  (** [k] rounds of the reduction: the points L and R of each *)
  Fixpoint lr_plan (k : nat) (A : Type) : Type :=
    match k with
    | O => A
    | S k' => ((E * E) * (K -> lr_plan k' A))%type
    end.
  (** the second equality proof, and the two points at the end of the proof *)
  Definition end_plan : Type := (E * (K -> K * (list K * list K)))%type.
  (** the commitment to the evaluation, and its proof *)
  Definition open_plan (k : nat) : Type := (E * (K -> lr_plan k ((E * E) * (K -> (K * K) * end_plan))))%type.
  (** the proof of knowledge, the product proof and the first equality proof; then the
      second sum-check after three challenges *)
  Definition mid_plan (b k : nat) : Type :=
    ((E * E) * (K -> (K * K) *
      ((E * E * E) * (E * E * E) * (K -> (K * K * K * K * K) *
        (E * (K -> K * (K -> K -> K -> zk_plan (S b) (open_plan k))))))))%type.
  (** the commitments to the witness, and after [a] challenges the first sum-check *)
  Definition nizk_plan (a b k : nat) : Type := (list E * (list K -> zk_plan a (mid_plan b k)))%type.

  (** what a prover sends when the challenges are [cs]; the rest of the plan; the challenges left *)
  Fixpoint zk_sent {n : nat} {A : Type} : zk_plan n A -> list K -> zkproof E * A * list K :=
    match n with
    | O => fun s cs => (MkZK [] [] [], s, cs)
    | S n' => fun s cs =>
        let '(P, s1) := s in let '(e, s2) := s1 (nth 0 cs 0) in
        let '((dl, be), s3) := s2 (nth 1 cs 0) (nth 2 cs 0) in
        let '((z, zd, zb), s4) := s3 (nth 3 cs 0) in
        let '(pf, rest, cs') := zk_sent s4 (skipn 4 cs) in
        (MkZK (P :: zk_polys pf) (e :: zk_evals pf) (MkDP dl be z zd zb :: zk_proofs pf), rest, cs')
    end.
  Fixpoint lr_sent {k : nat} {A : Type} : lr_plan k A -> list K -> list (E * E) * A * list K :=
    match k with
    | O => fun s cs => ([], s, cs)
    | S k' => fun s cs =>
        let '(LR, s1) := s in
        let '(l, rest, cs') := lr_sent (s1 (nth 0 cs 0)) (skipn 1 cs) in (LR :: l, rest, cs')
    end.
  Definition nizk_sent {a b k : nat} (s : nizk_plan a b k) (cs : list K) : nizk E :=
    let '(comm, s) := s in
    let '(sc1, s, cs) := zk_sent (s (firstn a cs)) (skipn a cs) in
    let '((Cz, ka), s) := s in
    let '((kz1, kz2), s) := s (nth 0 cs 0) in
    let '((Az, Bz, Pr), (pa, pb, pd), s) := s in
    let '(zs, s) := s (nth 1 cs 0) in
    let '(ea, s) := s in
    let '(ez, s) := s (nth 2 cs 0) in
    let '(sc2, s, cs) := zk_sent (s (nth 3 cs 0) (nth 4 cs 0) (nth 5 cs 0)) (skipn 6 cs) in
    let '(ry, s) := s in
    let '(LR, s, cs) := lr_sent (s (nth 0 cs 0)) (skipn 1 cs) in
    let '((dl, be), s) := s in
    let '((z1, z2), s) := s (nth 0 cs 0) in
    let '(fa, s) := s in
    let '(fz, (rx, ry')) := s (nth 1 cs 0) in
    MkNizk (MkRP comm sc1 (Az, Bz, Cz, Pr) (MkKP ka kz1 kz2) (MkPP pa pb pd zs) (MkEP ea ez) sc2 ry
      (MkLP (MkBP (map fst LR) (map snd LR)) dl be z1 z2) (MkEP fa fz)) rx ry'.
  (** the number of challenges *)
  Definition nizk_coins (a b k : nat) : nat := (a + (4 * a + (6 + (4 * S b + (1 + (k + 2))))))%nat.
End AgmSpec.
Arguments coordinates {K G} N stream co.
Arguments point {K G E} e.
Arguments zk_plan {K G} E n A.
Arguments lr_plan {K G} E k A.
Arguments nizk_plan {K G} E a b k.
Arguments mid_plan {K G} E b k.
Arguments open_plan {K G} E k.
Arguments end_plan {K G} E.
