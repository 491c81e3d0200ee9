(** Vocabulary for the product-circuit properties; independent of the code. *)
From Coq Require Import String List Arith Bool.
From Verif Require Import Base Field Vec PolyModel PolySpec CommitModel SumModel SumSpec.
Import ListNotations.

Section Spec.
  Context {K : Fld}.
  Local Open Scope fld_scope.

  Definition lo (Z : list K) : list K := firstn (length Z / 2) Z.
  Definition hi (Z : list K) : list K := skipn (length Z / 2) Z.
  (** level [k] of the binary product tree over the values [Z]: entry i of a level is
      the product of the entries i of the two halves of the level below *)
  Fixpoint level (k : nat) (Z : list K) : list K :=
    match k with O => Z | S k' => let V := level k' Z in map2 fmul (lo V) (hi V) end.
  (** eq(a, b), the multilinear extension of equality *)
  Definition eq_mle (a b : list K) : K := mle (eq_evals a) b.
  (** the sum over i of the products of the entries i of three tables *)
  Definition dot3 (A B C : list K) : K := sumn (length A) (fun i => nth i A 0 * nth i B 0 * nth i C 0).

  (** three tables of a dot product; the two triples of half tables *)
  Definition triple : Type := (list K * list K * list K)%type.
  Definition t1 (t : triple) := fst (fst t).
  Definition t2 (t : triple) := snd (fst t).
  Definition t3 (t : triple) := snd t.
  Definition tlen (m : nat) (t : triple) := length (t1 t) = (2 ^ m)%nat /\ length (t2 t) = (2 ^ m)%nat /\ length (t3 t) = (2 ^ m)%nat.
  Definition tlo (t : triple) : triple := (lo (t1 t), lo (t2 t), lo (t3 t)).
  Definition thi (t : triple) : triple := (hi (t1 t), hi (t2 t), hi (t3 t)).
  Definition cut (Ds : list triple) : list triple := flat_map (fun t => [tlo t; thi t]) Ds.

  Context {G : Mod K} {E : Enc G}.
  (** a sum-check with a false claim about [f] is accepted and the reduced claim is right:
      by C28_soundness one of the challenges is one of few unlucky values *)
  Definition fooled (H : log E -> K) (polys : list (list K)) (claim : K) (n d : nat) (tr : log E) (f : list K -> K) : Prop :=
    exists e r tr', sc_verify H polys claim n d tr = Ok (e, r, tr') /\ deg_each d n f /\ f r = e /\ hsum n f <> claim.

  (** two affine functions, given by their values at 0 and 1, differ but agree at [x]: there
      is at most one such [x] *)
  Definition meet (a b A B x : K) : Prop := (a <> A \/ b <> B) /\ a + x * (b - a) = A + x * (B - A).

  (** layer [i] of a proof (sum-check messages [polys], claimed values [vals]) turns the false
      claim [claim] at [rand] into a true one: its sum-check is fooled, or the two claimed
      values are false and their line meets the true line at the challenge that follows them *)
  Definition bad_layer (H : log E -> K) (n : nat) (Z : list K) (i : nat) (polys : list (list K)) (vals : list K) (claim : K) (rand : list K) (tr : log E) : Prop :=
    let V := level (n - S i) Z in
    claim <> mle (level (n - i) Z) rand /\
    (fooled H polys claim i 3 tr (fun b => mle (lo V) b * mle (hi V) b * eq_mle rand b) \/
     exists a b rest e r tr1, sc_verify H polys claim i 3 tr = Ok (e, r, tr1) /\ vals = a :: b :: rest /\
       meet a b (mle (lo V) r) (mle (hi V) r)
         (H (MChal "challenge_r_layer" :: MScalar "claim_prod_right" b :: MScalar "claim_prod_left" a :: tr1))).

  (** the same for the batched proof over the tables [Zs] and, in the last layer, the dot
      products [Ds]; [claims] are the claims about all circuits.  The random coefficients
      may also make false claims combine to the true value. *)
  Definition bad_batch (H : log E -> K) (n : nat) (Zs : list (list K)) (Ds : list triple) (i : nat) (polys : list (list K))
      (left right : list K) (dl dr dw claims rand : list K) (tr : log E) : Prop :=
    let fin := Nat.eqb (S i) n in
    let Vs := map (level (n - S i)) Zs in
    let truth := map (fun Z => mle (level (n - i) Z) rand) Zs ++ (if fin then map (fun t => dot3 (t1 t) (t2 t) (t3 t)) (cut Ds) else []) in
    let coeffs := map (fun k => H (repeat (MChal "rand_coeffs_next_layer") (S k) ++ tr)) (seq 0 (length claims)) in
    let tr0 := repeat (MChal "rand_coeffs_next_layer") (length claims) ++ tr in
    let vals b := map (fun V => mle (lo V) b * mle (hi V) b * eq_mle rand b) Vs ++
                  (if fin then map (fun t => mle (t1 t) b * mle (t2 t) b * mle (t3 t) b) (cut Ds) else []) in
    claims <> truth /\
    (dot claims coeffs = dot truth coeffs \/
     fooled H polys (dot claims coeffs) i 3 tr0 (fun b => dot (vals b) coeffs) \/
     exists e r tr1, sc_verify H polys (dot claims coeffs) i 3 tr0 = Ok (e, r, tr1) /\
       let tr2 := rev (flat_map (fun '(a, b) => [MScalar "claim_prod_left" a; MScalar "claim_prod_right" b]) (combine left right)) ++ tr1 in
       let tr3 := if fin then rev (flat_map (fun '(a, b, c) => [MScalar "claim_dotp_left" a; MScalar "claim_dotp_right" b; MScalar "claim_dotp_weight" c])
                                     (combine (combine dl dr) dw)) ++ tr2 else tr2 in
       let x := H (MChal "challenge_r_layer" :: tr3) in
       (exists j, (j < length Zs)%nat /\ let V := nth j Vs [] in meet (nth j left 0) (nth j right 0) (mle (lo V) r) (mle (hi V) r) x) \/
       fin = true /\ exists j, (j < length Ds)%nat /\ let D := nth j Ds ([], [], []) in
         let q (l : list K) (T : list K) := meet (nth (2 * j) l 0) (nth (2 * j + 1) l 0) (mle (lo T) r) (mle (hi T) r) x in
         q dl (t1 D) \/ q dr (t2 D) \/ q dw (t3 D)).
End Spec.
Arguments triple K : clear implicits.
