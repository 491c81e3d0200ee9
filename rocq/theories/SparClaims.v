(** Vocabulary for what an accepted evaluation proof shows.  [hproof], [lyproof] and [sproof] are
    the proof records of SparModel.v; the rest does not depend on the code of the protocol. *)
From Coq Require Import String List Arith.
From Verif Require Import Base Field Vec PolyModel PolySpec CommitModel SigmaModel R1csModel ProdModel ProdSpec SparModel SparSpec.
Import ListNotations.

Section Spec.
  Context {K : Fld} {G : Mod K} {E : Enc G}.
  Variable H : log E -> K.
  Local Open Scope fld_scope.
  (** what is stored for the matrices: rows, columns and values of the entries, filled up with
      zeros to [2^m] *)
  Definition fill {A} (m : nat) (z : A) (l : list A) : list A := l ++ repeat z (2 ^ m - length l).
  Definition stored_rows (m : nat) (Ps : list (sparse K)) : list (list nat) := map (fun P => fill m 0%nat (map erow (sM P))) Ps.
  Definition stored_cols (m : nat) (Ps : list (sparse K)) : list (list nat) := map (fun P => fill m 0%nat (map ecol (sM P))) Ps.
  Definition stored_vals (m : nat) (Ps : list (sparse K)) : list (list K) := map (fun P => fill m 0 (map eval (sM P))) Ps.
  (** the read timestamps, cut into sequences of [2^m]; the audit timestamps *)
  Definition stamps (m : nat) (addrs : list (list nat)) : list (list nat) :=
    map (fun i => map (fun j => earlier (concat addrs) (i * 2 ^ m + j)) (seq 0 (2 ^ m))) (seq 0 (length addrs)).
  Definition audits (c : nat) (addrs : list (list nat)) : list nat := map (total (concat addrs)) (seq 0 (2 ^ c)).
  Definition tbl (l : list nat) : list K := map of_nat l.

  (** The values the proof gives for one side (addresses, read timestamps, audit timestamps) are
      those of the stored tables at the two points; and all of the values. *)
  Definition side_right (m c : nat) (addrs : list (list nat)) (ro rm : list K) (v : list K * list K * K) : Prop :=
    v = (map (fun a => mle (tbl a) ro) addrs, map (fun t => mle (tbl t) ro) (stamps m addrs), mle (tbl (audits c addrs)) rm).
  Definition opened_right (m c : nat) (Ps : list (sparse K)) (RD CD : list (list K)) (ro rm : list K) (h : @hproof K G E) : Prop :=
    side_right m c (stored_rows m Ps) ro rm (hp_row h) /\ side_right m c (stored_cols m Ps) ro rm (hp_col h) /\
    hp_val h = map (fun V => mle V ro) (stored_vals m Ps) /\ hp_der h = (map (fun D => mle D ro) RD, map (fun D => mle D ro) CD).

  (** Values [evals] claimed at [rand] for several tables are absorbed, combined with the
      challenges drawn then, and the combination is opened against the commitment [C]. *)
  Definition batch_opened (l lc lj : string) (pf : lproof E) (g : dgens G) (C : list E) (evals rand : list K) (tr tr' : log E) : Prop :=
    exists s, let vs := evals ++ repeat 0 (2 ^ s - length evals) in
      (length evals <= 2 ^ s)%nat /\
      let tr1 := app_scalars l vs tr in
      let chal := map (fun k => H (repeat (MChal lc) (S k) ++ tr1)) (seq 0 s) in
      pe_verify_plain H pf g (MScalar lj (mle vs chal) :: repeat (MChal lc) s ++ tr1) (chal ++ rand) (mle vs chal) C = Ok tr'.

  (** fingerprints of the records in three columns, timestamps moved on by [s] *)
  Definition hashed (g t s : K) (A V T : list K) : list K := map (fun x => fingerprint g t (fst (fst x), snd (fst x), snd x + s)) (combine (combine A V) T).
  Definition hashed_ops (g t s : K) (m : nat) (addrs : list (list nat)) (D : list (list K)) : list (list K) :=
    map (fun i => hashed g t s (tbl (nth i addrs [])) (nth i D []) (tbl (nth i (stamps m addrs) []))) (seq 0 (length addrs)).
  Definition hashed_start (g t : K) (mem : list K) : list K := map (fpr g t) (at_start mem).
  Definition hashed_end (g t : K) (mem : list K) (addrs : list (list nat)) : list K := map (fpr g t) (at_end mem (concat addrs)).

  (** the records of accesses that claim to have read [vals] *)
  Definition claimed (accs : list nat) (vals : list K) : list (K * K * K) :=
    map (fun j => (of_nat (nth j accs 0%nat), nth j vals 0, of_nat (earlier accs j))) (seq 0 (length accs)).
  (** some of [vals] is not the content of its cell, and the products balance all the same *)
  Definition hides (g t : K) (mem : list K) (accs : list nat) (vals : list K) : Prop :=
    vals <> map (fun a => nth a mem 0) accs /\
    fprod (map (fpr g t) (at_start mem)) * fprod (map (fingerprint g t) (map (fun '(a, v, s) => (a, v, s + 1)) (claimed accs vals))) =
    fprod (map (fingerprint g t) (claimed accs vals)) * fprod (map (fpr g t) (at_end mem accs)).

  (** the claimed halves of the evaluations, and how they are absorbed *)
  Definition halves (dl dr : list K) : list K := flat_map (fun '(a, b) => [a; b]) (combine dl dr).
  Definition halves_log (dl dr : list K) : log E := rev (flat_map (fun '(a, b) => [MScalar "claim_eval_dotp_left" a; MScalar "claim_eval_dotp_right" b]) (combine dl dr)).

  (** some layer of the batched product proof [pb] turns false claims into true ones (ProdSpec.v) *)
  Definition batch_fooled (n : nat) (Zs : list (list K)) (Ds : list (triple K)) (pb : pbproof K) (pv dv : list K) (tr : log E) : Prop :=
    let '(dl, dr, dw) := bp_dotp pb in
    exists i pfi ci ri ti, (i < n)%nat /\ nth_error (bp_layers pb) i = Some pfi /\
      pcb_verify H (MkBProof (firstn i (bp_layers pb)) ([], [], [])) pv [] (2 ^ i) tr = Ok (ci, [], ri, ti) /\
      bad_batch H n Zs Ds i (by_proof pfi) (by_left pfi) (by_right pfi) dl dr dw (ci ++ (if Nat.eqb (S i) n then dv else [])) ri ti.
End Spec.
