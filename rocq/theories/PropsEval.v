(** C66: what a prover of the logarithmic dot-product proof, and of a polynomial
    evaluation proof, must know when it sends as many points R as points L. *)
From Coq Require Import String List Arith ZArith Bool.
From Verif Require Import Base ListAux Field Zq Vec MathModel PolyModel PolySpec CommitModel SigmaModel CommitSpec SigmaApi EvalSpec EvalProofs EvalApi ExSmall.
Import ListNotations.

(** C66: the answers of the runs give an opening of the claimed pair of commitments, whose
    value is the dot product of its vector with [a] *)
Theorem C66_extraction (K : Fld) (G : Mod K) (E : Enc G) (stream : nat -> G) (k : nat) (g : dgens G) (tr : log E) (a : list K)
    (Cx Cy : E) (r : K) (s : strategy E) (t : ctree) :
  dgens_new (2 ^ k) stream = Ok g -> length a = (2 ^ k)%nat ->
  all_runs (fun us c => exists tr', lp_verify (coins tr (r :: us ++ [c])) (sends s us c) (2 ^ k) g tr a Cx Cy = Ok tr') (last_scalar a) k [] t ->
  exists X Y, decompress E Cx = Some X /\ decompress E Cy = Some Y /\
  let '(x, b) := extract s (last_scalar a) [] t in length x = (2 ^ k)%nat /\
  gadd X (gmul r Y) = gadd (gadd (lincomb x (tab (2 ^ k) stream)) (gmul (r * dot x a)%fld (stream (2 ^ k)%nat))) (gmul b (stream (2 ^ k + 1)%nat)).
Proof. exact (api_extract stream k g tr a Cx Cy r s t). Qed.
Print Assumptions C66_extraction.

(** C66: with a wrong value, the same answers give a relation between the generators *)
Theorem C66_wrong_value (K : Fld) (G : Mod K) (E : Enc G) (stream : nat -> G) (k : nat) (g : dgens G) (tr : log E) (a : list K)
    (Cx Cy : E) (r : K) (s : strategy E) (t : ctree) (x0 : list K) (bx y by_ : K) :
  dgens_new (2 ^ k) stream = Ok g -> length a = (2 ^ k)%nat -> r <> 0%fld -> length x0 = (2 ^ k)%nat ->
  opens (dgN g) Cx x0 bx -> opens1 (dg1 g) Cy y by_ ->
  all_runs (fun us c => exists tr', lp_verify (coins tr (r :: us ++ [c])) (sends s us c) (2 ^ k) g tr a Cx Cy = Ok tr') (last_scalar a) k [] t ->
  y <> dot x0 a ->
  let '(x, b) := extract s (last_scalar a) [] t in
  let w := map2 fsub x0 x ++ [r * (y - dot x a); bx + r * by_ - b]%fld in
  length w = (2 ^ k + 2)%nat /\ lincomb w (tab (2 ^ k + 2) stream) = g0 /\ exists i, nth i w 0%fld <> 0%fld.
Proof. exact (api_lp_sound stream k g tr a Cx Cy r s t x0 bx y by_). Qed.
Print Assumptions C66_wrong_value.

Example C66_wrong_value_case :
  let a := [fs (-2); fs 3] in let r := fs 7 in let s := exStrat (fs 7) (fs 1) (fs (-2)) (fs 3) r (fs 139) in
  let Cx : sE := Some (fs 45) in let Cy : sE := Some (fs 99) in
  exists g, dgens_new (2 ^ 1) sStream = Ok g /\ length a = (2 ^ 1)%nat /\ r <> fs 0 /\
    opens (dgN g) Cx [fs 5; fs 6] (fs 0) /\ opens1 (dg1 g) Cy (fs 9) (fs 4) /\
    all_runs (fun us c => exists tr', lp_verify (E:=sE) (coins [] (r :: us ++ [c])) (sends s us c) (2 ^ 1) g [] a Cx Cy = Ok tr') (last_scalar a) 1 [] exTree /\
    fs 9 <> dot [fs 5; fs 6] a.
Proof. exact case_lp. Qed.

(** C66: as many points R as points L, and a committed value other than the evaluation of
    the committed polynomial *)
Theorem C66_evaluation (K : Fld) (G : Mod K) (E : Enc G) (H : log E -> K) (stream : nat -> G) (Z r : list K) (d : dense K) (g : dgens G)
    (tp : option (log E)) (C : list E) (blinds : list K) (tp' : option (log E)) (CZ : E) (v bv : K) (tr : log E) (r0 : K) (s : strategy E) (t : ctree) :
  length Z = (2 ^ length r)%nat -> dense_new Z = Ok d -> pcgens_new (length r) stream = Ok g ->
  poly_commit H d g tp = Ok (C, blinds, tp') -> opens1 (dg1 g) CZ v bv -> r0 <> 0%fld ->
  let '(L, R) := compute_factored_evals r in
  all_runs (fun us c => exists tr', pe_verify (coins tr (r0 :: us ++ [c])) (sends s us c) g tr r CZ C = Ok tr')
    (last_scalar R) (length r - length r / 2) [] t ->
  v <> mle Z r ->
  exists LZ, dense_bound d L = Ok LZ /\
  let '(x, b) := extract s (last_scalar R) [] t in
  let w := map2 fsub LZ x ++ [r0 * (v - dot x R); dot blinds L + r0 * bv - b]%fld in
  length w = (2 ^ (length r - length r / 2) + 2)%nat /\ lincomb w (tab (length w) stream) = g0 /\ exists i, nth i w 0%fld <> 0%fld.
Proof. exact (api_pe_sound H stream Z r d g tp C blinds tp' CZ v bv tr r0 s t). Qed.
Print Assumptions C66_evaluation.

Example C66_evaluation_case :
  let Z := [fs 1; fs 2; fs 3; fs 4] in let r := [fs 2; fs 3] in let r0 := fs 7 in
  let s := exStrat (fs 7) (fs 1) (fs (-2)) (fs 3) r0 (fs 139) in let CZ : sE := Some (fs 99) in
  exists d g C blinds tp', length Z = (2 ^ length r)%nat /\ dense_new Z = Ok d /\ pcgens_new (length r) sStream = Ok g /\
    poly_commit (E:=sE) sH d g None = Ok (C, blinds, tp') /\ opens1 (dg1 g) CZ (fs 9) (fs 4) /\ r0 <> fs 0 /\
    all_runs (fun us c => exists tr', pe_verify (E:=sE) (coins [] (r0 :: us ++ [c])) (sends s us c) g [] r CZ C = Ok tr')
      (last_scalar (snd (compute_factored_evals r))) (length r - length r / 2) [] exTree /\
    fs 9 <> mle Z r.
Proof. exact case_pe. Qed.

(** C66: the same when the value is given in the clear *)
Theorem C66_evaluation_plain (K : Fld) (G : Mod K) (E : Enc G) (H : log E -> K) (stream : nat -> G) (Z r : list K) (d : dense K) (g : dgens G)
    (tp : option (log E)) (C : list E) (blinds : list K) (tp' : option (log E)) (v : K) (tr : log E) (r0 : K) (s : strategy E) (t : ctree) :
  length Z = (2 ^ length r)%nat -> dense_new Z = Ok d -> pcgens_new (length r) stream = Ok g ->
  poly_commit H d g tp = Ok (C, blinds, tp') -> r0 <> 0%fld ->
  let '(L, R) := compute_factored_evals r in
  all_runs (fun us c => exists tr', pe_verify_plain (coins tr (r0 :: us ++ [c])) (sends s us c) g tr r v C = Ok tr')
    (last_scalar R) (length r - length r / 2) [] t ->
  v <> mle Z r ->
  exists LZ, dense_bound d L = Ok LZ /\
  let '(x, b) := extract s (last_scalar R) [] t in
  let w := map2 fsub LZ x ++ [r0 * (v - dot x R); dot blinds L - b]%fld in
  length w = (2 ^ (length r - length r / 2) + 2)%nat /\ lincomb w (tab (length w) stream) = g0 /\ exists i, nth i w 0%fld <> 0%fld.
Proof. exact (api_pe_plain_sound H stream Z r d g tp C blinds tp' v tr r0 s t). Qed.
Print Assumptions C66_evaluation_plain.

Example C66_evaluation_plain_case :
  let Z := [fs 1; fs 2; fs 3; fs 4] in let r := [fs 2; fs 3] in let r0 := fs 7 in
  let s := exStrat (fs 7) (fs 1) (fs (-2)) (fs 3) r0 (fs 111) in
  exists d g C blinds tp', length Z = (2 ^ length r)%nat /\ dense_new Z = Ok d /\ pcgens_new (length r) sStream = Ok g /\
    poly_commit (E:=sE) sH d g None = Ok (C, blinds, tp') /\ r0 <> fs 0 /\
    all_runs (fun us c => exists tr', pe_verify_plain (E:=sE) (coins [] (r0 :: us ++ [c])) (sends s us c) g [] r (fs 9) C = Ok tr')
      (last_scalar (snd (compute_factored_evals r))) (length r - length r / 2) [] exTree /\
    fs 9 <> mle Z r.
Proof. exact case_pe_plain. Qed.
