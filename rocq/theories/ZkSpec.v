(** Vocabulary for the statements that a proof shows nothing but the truth of its claim: the
    random numbers a prover draws, the challenges it is given, and maps between lists of random
    numbers that keep them random. *)
From Coq Require Import String List Arith Bool.
From Verif Require Import Base Field Vec CommitModel SigmaModel CommitSpec.
Import ListNotations.

Section ZkSpec.
  Context {K : Fld} {G : Mod K} {E : Enc G}.
  (** what the tape answers to a sequence of requests with these labels *)
  Fixpoint drawn (H : log E -> K) (ls : list string) (tape : log E) : list K :=
    match ls with
    | [] => []
    | l :: t => H (MChal l :: tape) :: drawn H t (MChal l :: tape)
    end.
  (** the challenges drawn from a transcript so far, oldest first *)
  Fixpoint replies (H : log E -> K) (l : log E) : list K :=
    match l with
    | [] => []
    | MChal s :: t => replies H t ++ [H (MChal s :: t)]
    | _ :: t => replies H t
    end.
  (** [f] permutes the lists of [n] scalars, so it takes uniformly random lists to uniformly
      random lists *)
  Definition permutes (n : nat) (f : list K -> list K) : Prop :=
    exists f', forall l, length l = n -> length (f l) = n /\ length (f' l) = n /\ f' (f l) = l /\ f (f' l) = l.
  (** all lists of [n] elements of [Q] *)
  Fixpoint lists_over (Q : list K) (n : nat) : list (list K) :=
    match n with O => [[]] | S n' => flat_map (fun x => map (cons x) (lists_over Q n')) Q end.
End ZkSpec.

(** the random numbers a proof of satisfiability asks for, in order, for 2^a constraints and 2^b
    variables: blinds of the committed witness; blinds and coins of the first sum-check; blinds of
    the four claims and coins of the three proofs about them; blinds and coins of the second
    sum-check; the blind of the opened value, the coins of the opening and of the last equality *)
Definition nizk_requests (a b : nat) : list (list string) :=
  let k := (b - b / 2)%nat in
  let coins m n := concat (repeat (repeat "d_vec"%string m ++ ["r_delta"; "r_beta"]%string) n) in
  [repeat "poly_blinds"%string (2 ^ (b / 2));
   repeat "blinds_poly"%string a; repeat "blinds_evals"%string a; coins 4%nat a;
   ["Az_blind"; "Bz_blind"; "Cz_blind"; "prod_Az_Bz_blind"]%string; ["t1"; "t2"]%string; ["b1"; "b2"; "b3"; "b4"; "b5"]%string; ["r"%string];
   repeat "blinds_poly"%string (S b); repeat "blinds_evals"%string (S b); coins 3%nat (S b);
   ["blind_eval"%string];
   ["d"; "r_delta"; "r_delta"]%string ++ repeat "blinds_vec_1"%string (2 * k) ++ repeat "blinds_vec_2"%string (2 * k);
   ["r"%string]].
