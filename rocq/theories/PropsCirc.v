(** Properties C38-C41: the secp256k1 circuits.  A template is a function of its
    advice (the signals the prover chooses) and its inputs, [None] meaning that a
    constraint is violated (CircModel.v).  [eadd], [emul] and [on_curve] are the
    textbook group operations of CurveSpec.v; [enc] writes the point at infinity
    as (0, 0). *)
From Coq Require Import ZArith List Bool.
From Verif Require Import Base Primes Field Zq CurveSpec Secp CircModel CircSpec CircApi CircEx.
Import ListNotations.
Local Open Scope Z_scope.

(** ** C38 *)
Theorem C38_add_incomplete : forall (x1 y1 x2 y2 : Fp) (o : Fp * Fp), x1 <> x2 ->
  (exists l, add_incomplete l x1 y1 x2 y2 = Some o) <-> eadd (Some (x1, y1)) (Some (x2, y2)) = Some o.
Proof. exact add_incomplete_iff. Qed.
Print Assumptions C38_add_incomplete.

Theorem C38_double : forall (x y : Fp) (o : Fp * Fp), on_secp (Some (x, y)) ->
  (exists l, double l x y = Some o) <-> eadd (Some (x, y)) (Some (x, y)) = Some o.
Proof. exact double_iff. Qed.
Print Assumptions C38_double.

(** distinct points (or two identities): every satisfying assignment gives the sum *)
Theorem C38_add_complete : forall (P Q : option (Fp * Fp)) (o : Fp * Fp),
  on_secp P -> on_secp Q -> P <> Q \/ P = None -> ~ degenerate P Q ->
  (exists w, add_complete w (fst (enc P)) (snd (enc P)) (fst (enc Q)) (snd (enc Q)) = Some o) <-> o = enc (eadd P Q).
Proof. exact add_complete_iff. Qed.
Print Assumptions C38_add_complete.

(** all points, doublings included, with the witness generator's assignment, whatever
    its division does at zero *)
Theorem C38_add_complete_honest : forall (dv : Fp -> Fp -> Fp) (P Q : option (Fp * Fp)),
  division dv -> on_secp P -> on_secp Q -> ~ degenerate P Q ->
  add_complete (h_add_complete dv (fst (enc P)) (snd (enc P)) (fst (enc Q)) (snd (enc Q)))
    (fst (enc P)) (snd (enc P)) (fst (enc Q)) (snd (enc Q)) = Some (enc (eadd P Q)).
Proof. exact add_complete_honest. Qed.
Print Assumptions C38_add_complete_honest.

(** degenerate pairs: every assignment gives the identity, which is wrong *)
Theorem C38_degenerate_refuted : forall (w : ac_adv Fp) (P Q : option (Fp * Fp)) (o : Fp * Fp),
  on_secp P -> on_secp Q -> degenerate P Q ->
  add_complete w (fst (enc P)) (snd (enc P)) (fst (enc Q)) (snd (enc Q)) = Some o ->
  o = (f0, f0) /\ o <> enc (eadd P Q).
Proof. exact add_complete_degenerate. Qed.
Print Assumptions C38_degenerate_refuted.
Example C38_degenerate_case :
  on_secp (Some (fp dx1, fp 47)) /\ on_secp (Some (fp dx2, fp (-46))) /\ degenerate (Some (fp dx1, fp 47)) (Some (fp dx2, fp (-46))).
Proof. exact (conj d1_on (conj d2_on d_degenerate)). Qed.

(** equal points: the prover can make any slope l pass, and with it leave the curve *)
Theorem C38_doubling_refuted : forall x y l : Fp, on_secp (Some (x, y)) ->
  exists w, add_complete w x y x y =
    Some (fsub (fmul l l) (fmul (fp 2) x), fsub (fmul l (fsub x (fsub (fmul l l) (fmul (fp 2) x)))) y).
Proof. exact add_complete_slope. Qed.
Print Assumptions C38_doubling_refuted.
Theorem C38_off_curve_refuted : forall x y : Fp, on_secp (Some (x, y)) ->
  exists w o, add_complete w x y x y = Some o /\ ~ on_secp (Some o).
Proof. exact add_complete_off_curve. Qed.
Print Assumptions C38_off_curve_refuted.

Example C38_case : on_secp (Some (Tx, Ty)) /\ on_secp base /\ Some (Tx, Ty) <> base /\
  on_secp (emul 24 (Some (Tx, Ty))) /\ on_secp (eff_U ri 5) /\ emul 24 (Some (Tx, Ty)) <> eff_U ri 5 /\
  ~ degenerate (emul 24 (Some (Tx, Ty))) (eff_U ri 5).
Proof.
  exact (conj (proj1 T_point) (conj (proj1 secp_base) (conj T_ne_base
    (conj (proj1 (secp_mulk 24 _ T_point)) (conj (U_on 5) (conj sum_24 last_24)))))).
Qed.

(** ** C39 *)
(** the witness generator: k = (s - 2^256) mod n, outside one interval *)
Theorem C39_honest : forall (dv : Fp -> Fp -> Fp) (s : Fp), division dv -> ~ carry_lost (zval s) ->
  k_tmpl (h_k dv s) s = Some (zbits 256 ((zval s - 2 ^ 256) mod n)).
Proof. exact k_honest_ok. Qed.
Print Assumptions C39_honest.

(** in the interval it is accepted with a wrong k *)
Theorem C39_carry_refuted : forall (dv : Fp -> Fp -> Fp) (s : Fp), division dv -> carry_lost (zval s) ->
  k_tmpl (h_k dv s) s = Some (zbits 256 ((zval s - 2 ^ 256) mod n - 2 ^ 128)).
Proof. exact k_honest_lost. Qed.
Print Assumptions C39_carry_refuted.

(** the input is not constrained: for every s every 256-bit k is accepted *)
Theorem C39_unconstrained_refuted : forall (s : Fp) (k : Z), 0 <= k < 2 ^ 256 -> exists w, k_tmpl w s = Some (zbits 256 k).
Proof. exact k_any. Qed.
Print Assumptions C39_unconstrained_refuted.

Example C39_case : ~ carry_lost (zval (fp 24)) /\ carry_lost (zval (fp (2 ^ 128 - 24))) /\ division (@fdiv Fp).
Proof. exact (conj no_loss_24 (conj loss_case (CircBits.fdiv_division Fp))). Qed.

(** ** C40 *)
(** every satisfying assignment: the output is a multiple of P, by a scalar of which the
    prover may choose the 256 bits, except for one bit string and degenerate additions *)
Theorem C40_mul_sound : forall (w : mul_adv) (s x y : Fp) (o : Fp * Fp),
  secp_point (Some (x, y)) -> secp_mul w s x y = Some o ->
  exists k, 0 <= k < 2 ^ 256 /\ k_tmpl (ma_k w) s = Some (zbits 256 k) /\
    (k <> kfree -> tail_ok k (Some (x, y)) -> o = enc (emul (2 ^ 256 + k) (Some (x, y)))).
Proof. exact mul_sound_api. Qed.
Print Assumptions C40_mul_sound.

(** the witness generator computes s P *)
Theorem C40_mul_honest : forall (dv : Fp -> Fp -> Fp) (s x y : Fp),
  division dv -> secp_point (Some (x, y)) -> ~ carry_lost (zval s) -> tail_ok ((zval s - 2 ^ 256) mod n) (Some (x, y)) ->
  secp_mul (h_mul dv s x y) s x y = Some (enc (emul (zval s) (Some (x, y)))).
Proof. exact mul_honest_api. Qed.
Print Assumptions C40_mul_honest.

(** and (s - 2^128) P, which is different, where the carry is lost *)
Theorem C40_carry_refuted : forall (dv : Fp -> Fp -> Fp) (s x y : Fp),
  division dv -> secp_point (Some (x, y)) -> carry_lost (zval s) -> tail_ok ((zval s - 2 ^ 256) mod n - 2 ^ 128) (Some (x, y)) ->
  secp_mul (h_mul dv s x y) s x y = Some (enc (emul (zval s - 2 ^ 128) (Some (x, y)))) /\
  emul (zval s - 2 ^ 128) (Some (x, y)) <> emul (zval s) (Some (x, y)).
Proof. exact mul_lost_api. Qed.
Print Assumptions C40_carry_refuted.

(** the scalar input does not determine the output *)
Theorem C40_unconstrained_refuted : forall (s : Fp) (k : Z) (x y : Fp),
  secp_point (Some (x, y)) -> 0 <= k < 2 ^ 256 -> tail_ok k (Some (x, y)) ->
  exists w, secp_mul w s x y = Some (enc (emul (2 ^ 256 + k) (Some (x, y)))).
Proof. exact mul_any_api. Qed.
Print Assumptions C40_unconstrained_refuted.

(** for one bit string the output need not even be a curve point *)
Theorem C40_off_curve_refuted : forall s x y : Fp, secp_point (Some (x, y)) -> tail_ok kfree (Some (x, y)) ->
  exists w o, secp_mul w s x y = Some o /\ ~ on_secp (Some o).
Proof. exact mul_off_curve. Qed.
Print Assumptions C40_off_curve_refuted.

Example C40_case : secp_point (Some (Tx, Ty)) /\ tail_ok ((24 - 2 ^ 256) mod n) (Some (Tx, Ty)) /\ tail_ok kfree (Some (Tx, Ty)) /\
  tail_ok ((2 ^ 128 - 24 - 2 ^ 256) mod n - 2 ^ 128) (Some (Tx, Ty)).
Proof. exact (conj T_point (conj tail_24 (conj tail_free tail_lost))). Qed.

(** ** C41 *)
Theorem C41_equivalence : forall (Q : option (Fp * Fp)) (m r s : Z), secp_point Q -> 0 < r < n -> 0 < s < n ->
  ecdsa_ok Q m r s <->
  exists x y ri, secp_point (Some (x, y)) /\ zval x mod n = r /\ (r * ri) mod n = 1 /\
    Q = eadd (emul s (eff_T ri (Some (x, y)))) (eff_U ri m).
Proof. exact eff_equiv. Qed.
Print Assumptions C41_equivalence.

(** the circuit run by the witness generator returns the key for which the signature is valid *)
Theorem C41_circuit_complete : forall (dv : Fp -> Fp -> Fp) (Q : option (Fp * Fp)) (m r s : Z) (x y : Fp) (ri : Z) (Tx Ty : Fp),
  division dv -> 0 < r < n -> 0 < s < n -> secp_point (Some (x, y)) -> zval x mod n = r -> (r * ri) mod n = 1 ->
  eff_T ri (Some (x, y)) = Some (Tx, Ty) -> Q = eadd (emul s (Some (Tx, Ty))) (eff_U ri m) ->
  ~ carry_lost s -> tail_ok ((s - 2 ^ 256) mod n) (Some (Tx, Ty)) -> ~ degenerate (emul s (Some (Tx, Ty))) (eff_U ri m) ->
  let U := enc (eff_U ri m) in
  ecdsa_ok Q m r s /\
  eff_ecdsa (h_eff dv (fp s) Tx Ty (fst U) (snd U)) (fp s) Tx Ty (fst U) (snd U) = Some (enc Q).
Proof. exact eff_circuit_complete. Qed.
Print Assumptions C41_circuit_complete.

(** and every satisfying assignment returns a key for which some signature with the same r is valid *)
Theorem C41_circuit_sound : forall (w : mul_adv * ac_adv Fp) (s : Fp) (m r : Z) (x y : Fp) (ri : Z) (Tx Ty : Fp) (o : Fp * Fp),
  0 < r < n -> secp_point (Some (x, y)) -> zval x mod n = r -> (r * ri) mod n = 1 -> eff_T ri (Some (x, y)) = Some (Tx, Ty) ->
  eff_ecdsa w s Tx Ty (fst (enc (eff_U ri m))) (snd (enc (eff_U ri m))) = Some o ->
  exists k, 0 <= k < 2 ^ 256 /\
    (let M := emul (2 ^ 256 + k) (Some (Tx, Ty)) in
     k <> kfree -> tail_ok k (Some (Tx, Ty)) -> M <> eff_U ri m \/ M = None -> ~ degenerate M (eff_U ri m) ->
     (2 ^ 256 + k) mod n <> 0 ->
     exists Q, o = enc Q /\ ecdsa_ok Q m r ((2 ^ 256 + k) mod n)).
Proof. exact eff_circuit_sound. Qed.
Print Assumptions C41_circuit_sound.

(** nonce point G, message 5, s = 24 *)
Example C41_case : let Q := eadd (emul 24 (Some (Tx, Ty))) (eff_U ri 5) in
  secp_point base /\ base = Some (fp gx, fp gy) /\ zval (fp gx) mod n = gx /\ (gx * ri) mod n = 1 /\ eff_T ri base = Some (Tx, Ty) /\
  ~ carry_lost 24 /\ tail_ok ((24 - 2 ^ 256) mod n) (Some (Tx, Ty)) /\
  ~ degenerate (emul 24 (Some (Tx, Ty))) (eff_U ri 5) /\ ecdsa_ok Q 5 gx 24 /\
  eff_ecdsa (h_eff fdiv (fp 24) Tx Ty (fst (enc (eff_U ri 5))) (snd (enc (eff_U ri 5)))) (fp 24) Tx Ty
    (fst (enc (eff_U ri 5))) (snd (enc (eff_U ri 5))) = Some (enc Q).
Proof.
  intro Q.
  pose proof (eff_circuit_complete fdiv Q 5 gx 24 (fp gx) (fp gy) ri Tx Ty (CircBits.fdiv_division Fp)
    (conj eq_refl eq_refl) (conj eq_refl eq_refl) secp_base gx_mod ri_ok T_eff eq_refl no_loss_24 tail_24 last_24) as E.
  exact (conj secp_base (conj eq_refl (conj gx_mod (conj ri_ok (conj T_eff (conj no_loss_24 (conj tail_24 (conj last_24 E)))))))).
Qed.
