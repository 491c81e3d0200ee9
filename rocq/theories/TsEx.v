(** Concrete cases for the theorems about the TypeScript library. *)
From Coq Require Import ZArith List Bool Lia.
From Verif Require Import Base Primes Field Zq CurveSpec Secp CurveProofs SecpOrder SecpCofactor CircSpec CircEx TsModel TsSpec TsProofs TsEff.
Import ListNotations.
Local Open Scope Z_scope.

(** nonce point G (r = gx, v = 27 for the even y), message hash 5 *)
Lemma G_nonce : nonce_point gx 27 (fp gx, fp gy).
Proof. split; [exact base_on|]. split; reflexivity. Qed.
Lemma affine {A} (P : option A) : P <> None -> exists U, P = Some U.
Proof. destruct P as [U|]; [exists U; reflexivity|congruence]. Qed.
Lemma eff_U_none ri m : eff_U ri m = None -> (n | ri * m).
Proof.
  intro E. unfold eff_U in E. apply (proj1 (mul_zero _ _ base_on base_some)) in E.
  apply (proj1 (Z.divide_opp_r _ _)) in E. rewrite Z.mul_comm. exact E.
Qed.
Lemma U_affine : exists U, eff_U ri 5 = Some U.
Proof.
  apply affine. intro E. pose proof (eff_U_none ri 5 E) as D.
  apply Z.mod_divide in D; [|discriminate]. vm_compute in D. discriminate.
Qed.
Lemma case_true : exists U, eff_U ri 5 = Some U /\
  forall root, verifyEff (MkPI gx 27 [5] (MkCPI root (zval Tx) (zval Ty) (zval (fst U)) (zval (snd U)))) = Ok true.
Proof.
  destruct U_affine as [U HU]. exists U. split; [exact HU|]. intro root. apply verifyEff_true. split; [discriminate|].
  exists (fp gx, fp gy), ri, (Tx, Ty), U. split; [exact G_nonce|]. split; [exact ri_ok|]. split; [exact T_eff|].
  split; [exact HU|]. repeat split; reflexivity.
Qed.
Lemma case_false : forall root, verifyEff (MkPI gx 27 [5] (MkCPI root 0 0 0 0)) = Ok false.
Proof.
  intro root. destruct (verifyEff_total (MkPI gx 27 [5] (MkCPI root 0 0 0 0))) as [H|[b H]].
  - exfalso. apply verifyEff_throws in H. cbn [pi_r pi_rV pi_msgHash] in H. destruct H as [H|[H|[H|H]]].
    + discriminate.
    + exact (H _ G_nonce).
    + apply Z.mod_divide in H; [|discriminate]. discriminate.
    + apply Z.mod_divide in H; [|discriminate]. discriminate.
  - destruct b; [|exact H]. exfalso. apply verifyEff_true in H. destruct H as (_ & R & ri' & T & U & (HR & HX & HO) & Hi & HT & HU & E1 & E2 & _).
    cbn [pi_circuit cp_Tx cp_Ty] in E1, E2. assert (O : on_secp (Some T)).
    { rewrite <- HT. apply (on_emul secp), HR. }
    destruct T as [x y]. cbn [fst snd] in E1, E2. apply curve_Z in O. rewrite <- E1, <- E2 in O. discriminate.
Qed.

(** a public input that fits, and one whose v does not *)
Definition exCPI : circuit_pub := MkCPI 1 2 3 4 (2 ^ 256 - 1).
Definition exPI : public_input := MkPI 7 27 [1; 2; 255] exCPI.
Lemma exPI_fits : pi_fits exPI.
Proof. unfold pi_fits, cpi_fits, u256, exPI, exCPI. cbn [pi_r pi_rV pi_circuit cp_root cp_Tx cp_Ty cp_Ux cp_Uy]. repeat split; lia. Qed.
Definition exEip155 : public_input := MkPI 7 310 [1; 2; 255] exCPI.
