(** Concrete points that meet the hypotheses of the circuit theorems. *)
From Coq Require Import ZArith Znumtheory List Bool Arith Lia Field Ring.
From Verif Require Import Base Primes Field Zq CurveSpec CurveProofs Secp SecpOrder CircModel CircSpec CircProofs CircBits CircMul CircTable CircApi.
Import ListNotations.
Local Open Scope Z_scope.

Definition T' : option (Fp * Fp) := Some (fp tx, fp ty).
Lemma T'_point : secp_point T'.
Proof. unfold T'. rewrite <- tk_mul. apply secp_mulk, secp_base. Qed.

(** y coordinate of a small multiple of T' *)
Definition row_of (m : positive) : option (Z * Z) :=
  if Pos.eqb m 1 then Some (tx, ty) else
  match find (fun r => Pos.eqb (fst (fst r)) m) small_table with Some r => Some (snd (fst r)) | None => None end.
Definition ycoord (m : Z) : option Z :=
  match m with
  | Z0 => Some 0
  | Zpos m => match row_of m with Some (_, y) => Some y | None => None end
  | Zneg m => match row_of m with Some (_, y) => Some (- y) | None => None end
  end.
Lemma row_of_ok m x y : row_of m = Some (x, y) -> emul (Zpos m) T' = Some (fp x, fp y).
Proof.
  unfold row_of. destruct (Pos.eqb_spec m 1) as [-> |_].
  - intro E. injection E as <- <-. reflexivity.
  - destruct (find _ small_table) as [[[m' [x' y']] c]|] eqn:F; [|discriminate]. intro E. apply some_inj in E. cbn [snd fst] in E.
    injection E as -> ->. apply find_some in F. destruct F as [F1 F2]. cbn [fst] in F2. apply Pos.eqb_eq in F2. subst m'.
    exact (small_mul m x y c F1).
Qed.
Lemma ycoord_ok m y : ycoord m = Some y -> snd (enc (emul m T')) = fp y.
Proof.
  destruct m as [|m|m]; cbn [ycoord].
  - intro E. injection E as <-. reflexivity.
  - destruct (row_of m) as [[x y']|] eqn:R; [|discriminate]. intro E. injection E as <-. rewrite (row_of_ok _ _ _ R). reflexivity.
  - destruct (row_of m) as [[x y']|] eqn:R; [|discriminate]. intro E. injection E as <-. apply row_of_ok in R.
    change (emul (Z.neg m) T') with (eopp (emul (Z.pos m) T')). rewrite R. cbn [eopp enc snd]. rewrite fp_opp. reflexivity.
Qed.

(** the representative of v modulo n of least absolute value *)
Definition small (v : Z) : Z := let r := v mod n in if r <? 2 ^ 128 then r else r - n.
Lemma small_mod v : (n | v - small v).
Proof.
  destruct (mod_div v) as [d D]. unfold small. destruct (v mod n <? 2 ^ 128); [exists (- d)|exists (1 - d)]; lia.
Qed.
Definition nondeg (a b : Z) : bool :=
  match ycoord (small a), ycoord (small b) with Some y1, Some y2 => negb ((y1 + y2) mod p =? 1) | _, _ => false end.
Lemma nondeg_ok a b : nondeg a b = true -> ~ degenerate (emul a T') (emul b T').
Proof.
  unfold nondeg. destruct (ycoord (small a)) as [y1|] eqn:E1; [|discriminate]. destruct (ycoord (small b)) as [y2|] eqn:E2; [|discriminate].
  intros H [_ D]. rewrite (emul_congr T' _ _ T'_point (small_mod a)), (emul_congr T' _ _ T'_point (small_mod b)) in D.
  rewrite (ycoord_ok _ _ E1), (ycoord_ok _ _ E2), <- fp_add, <- fp_1 in D. apply fp_eq in D. change (1 mod p) with 1 in D.
  rewrite D, Z.eqb_refl in H. discriminate.
Qed.

(** T = 4 T' *)
Definition Tc : Z * Z := Eval vm_compute in match row_of 4 with Some a => a | None => (0, 0) end.
Definition Tx : Fp := fp (fst Tc).
Definition Ty : Fp := fp (snd Tc).
Lemma T_eq : Some (Tx, Ty) = emul 4 T'.
Proof. symmetry. apply row_of_ok. reflexivity. Qed.
Lemma T_point : secp_point (Some (Tx, Ty)).
Proof. rewrite T_eq. apply secp_mulk, T'_point. Qed.
Lemma T_mul a : emul a (Some (Tx, Ty)) = emul (a * 4) T'.
Proof. rewrite T_eq, (emul_mul secp) by (exact (proj1 T'_point)). reflexivity. Qed.
Lemma tail_check k : forallb (fun uv => nondeg (fst uv * 4) (snd uv * 4)) (tail_pairs k) = true -> tail_ok k (Some (Tx, Ty)).
Proof.
  intros H u v I. rewrite forallb_forall in H. specialize (H _ I). cbn [fst snd] in H. rewrite !T_mul. apply nondeg_ok. exact H.
Qed.
Lemma tail_24 : tail_ok ((24 - 2 ^ 256) mod n) (Some (Tx, Ty)).
Proof. apply tail_check. vm_compute. reflexivity. Qed.
Lemma tail_free : tail_ok kfree (Some (Tx, Ty)).
Proof. apply tail_check. vm_compute. reflexivity. Qed.
Lemma tail_lost : tail_ok ((2 ^ 128 - 24 - 2 ^ 256) mod n - 2 ^ 128) (Some (Tx, Ty)).
Proof. apply tail_check. vm_compute. reflexivity. Qed.

(** T belongs to signatures whose nonce point is the base point *)
Definition ri : Z := Eval vm_compute in (4 * Zpos tk) mod n.
Lemma ri_ok : (gx * ri) mod n = 1. Proof. vm_compute. reflexivity. Qed.
Lemma T_eff : eff_T ri base = Some (Tx, Ty).
Proof.
  unfold eff_T. rewrite T_eq. unfold T'. rewrite <- tk_mul, <- (emul_mul secp) by exact base_on.
  apply (emul_congr _ _ _ secp_base). apply Z.mod_divide; [discriminate|]. vm_compute. reflexivity.
Qed.
Lemma U_eq : eff_U ri 5 = emul (-20) T'.
Proof.
  unfold eff_U, T'. rewrite <- tk_mul, <- (emul_mul secp) by exact base_on.
  apply (emul_congr _ _ _ secp_base). apply Z.mod_divide; [discriminate|]. vm_compute. reflexivity.
Qed.
Lemma last_24 : ~ degenerate (emul 24 (Some (Tx, Ty))) (eff_U ri 5).
Proof. rewrite U_eq, T_mul. apply nondeg_ok. vm_compute. reflexivity. Qed.
Lemma sum_24 : emul 24 (Some (Tx, Ty)) <> eff_U ri 5.
Proof.
  rewrite U_eq, T_mul. intro E. destruct T'_point as [H1 H2]. apply (order_eq _ H1 H2) in E; [|discriminate].
  revert E. apply ndiv. unfold n. lia.
Qed.

(** a degenerate pair *)
Definition dx1 : Z := 0xe81285a683ac496061284ac14490b243c4a539b24888b034a81f267e5ba78da5.
Definition dx2 : Z := 0xc0e6d52bdf965e9d995cb0dd8c0b89bec6e0d380ca2d2ed53ac145eaf3dafae7.
Lemma d1_on : on_secp (Some (fp dx1, fp 47)).
Proof. apply (onE secp). rewrite <- !fp_mul. change (cb secp) with (fp 7). rewrite <- fp_add. apply fp_eq. vm_compute. reflexivity. Qed.
Lemma d2_on : on_secp (Some (fp dx2, fp (-46))).
Proof. apply (onE secp). rewrite <- !fp_mul. change (cb secp) with (fp 7). rewrite <- fp_add. apply fp_eq. vm_compute. reflexivity. Qed.
Lemma d_degenerate : degenerate (Some (fp dx1, fp 47)) (Some (fp dx2, fp (-46))).
Proof.
  split; cbn [enc fst snd].
  - intro E. apply fp_eq in E. vm_compute in E. discriminate.
  - rewrite <- fp_add. reflexivity.
Qed.
Lemma T_ne_base : Some (Tx, Ty) <> base.
Proof.
  intro E. unfold base in E. apply some_inj in E. apply pair_equal_spec in E. destruct E as [E _]. unfold Tx in E.
  apply fp_eq in E. vm_compute in E. discriminate.
Qed.
Lemma U_on m : on_secp (eff_U ri m). Proof. exact (proj1 (secp_mulk _ _ secp_base)). Qed.
Lemma no_loss_24 : ~ carry_lost 24.
Proof. intros [H _]. apply H. reflexivity. Qed.
Lemma gx_mod : zval (fp gx) mod n = gx. Proof. reflexivity. Qed.
Lemma loss_case : carry_lost (zval (fp (2 ^ 128 - 24))).
Proof. split; [vm_compute; discriminate|reflexivity]. Qed.
