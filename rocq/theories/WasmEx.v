(** Concrete cases for the theorems about the membership prover and verifier. *)
From Coq Require Import String ZArith List Bool Lia.
From Verif Require Import Base Primes Field Zq Limb LimbInt Vec CurveSpec Secp CurveProofs SecpOrder SecpCofactor CircSpec CircApi CircEx R1csModel R1csSpec R1csProofs CommitModel SigmaModel SigmaApi SumModel NizkModel TsModel TsSpec TsProofs TsEff TsEx ReadModel ReadSpec ReadProofs ReadApi BinModel BinSpec WasmModel WasmSpec.
Import ListNotations.
Local Open Scope Z_scope.

(** bytes of the encoded points of SigmaApi.v *)
Definition exPB (e : exE) : list Z := match e with None => [] | Some x => 2 :: le_bytes 32 (zval x) end.
Definition exPP (b : list Z) : option exE := match b with [] => Some None | _ :: t => Some (Some (fp (of_le t))) end.
Lemma ex_codec : point_codec (G:=exG) (E:=exE) (2 ^ 32) exPB exPP.
Proof.
  intros [x|]; [|split; [reflexivity|reflexivity]]. split.
  - cbn [exPB exPP]. pose proof (zval_range _ x) as R. rewrite of_le_le_bytes by lia. rewrite Z.mod_small, fp_zval; [reflexivity|]. split; [lia|]. apply (Z.lt_trans _ p); [lia|reflexivity].
  - cbn [exPB length]. rewrite le_bytes_length. reflexivity.
Qed.
Definition exDigest (_ : r1cs Fp) : list nat := [7; 255]%nat.
Lemma ex_environment : environment (G:=exG) (E:=exE) (2 ^ 32) exPB exPP exDigest.
Proof.
  split; [split; discriminate|]. split; [exact ex_codec|]. intro x. split; [repeat constructor; lia|reflexivity].
Qed.
(** the circuit w1 * w1 = 7 w2 *)
Definition exCircuitFile : list Z := match gen_circuit exDigest (r1cs_bytes (exSections exCircuit)) 5 with Ok b => b | _ => [] end.
Lemma ex_circuit_file : circuit_file exDigest exCircuit exCircuitFile.
Proof.
  exists exPrime, (exSections exCircuit), []. split; [exact (ex_circuit_ok 7 ltac:(split; [discriminate|reflexivity]))|]. split; [exact (ex_sections_ok 7)|].
  assert (K : all_coeffs (fun x => swap x < p) exCircuit) by (apply coeffs_okb_spec; vm_compute; reflexivity). split; [exact K|].
  assert (W : wires_ok (Z.to_nat (ci_wires exCircuit)) (ci_cons exCircuit)).
  { intros a b d [Q|[]]. injection Q as <- <- <-. cbn [ci_wires exCircuit]. repeat split; intros j x [Q|[]]; injection Q as <- <-; vm_compute; lia. }
  split; [exact W|]. split; [discriminate|]. split; [reflexivity|]. split; [vm_compute; reflexivity|]. rewrite app_nil_r.
  destruct (load_ok exDigest exPrime exCircuit (exSections exCircuit) [] 5 (ex_circuit_ok 7 ltac:(split; [discriminate|reflexivity])) (ex_sections_ok 7) K W) as (ii & Hi & _).
  rewrite app_nil_r in Hi. unfold exCircuitFile, gen_circuit. rewrite Hi. reflexivity.
Qed.
(** w = (1, 7, 7) *)
Definition exWtns : list Z := wtns_bytes 2 exPrime (32 * zlen [1; 7; 7]) [1; 7; 7] ++ [].
Lemma ex_witness_file : witness_file exCircuit exWtns.
Proof.
  exists 2, exPrime, [1; 7; 7], []. split; [reflexivity|].
  split. { split; [lia|]. split; [apply le_string_length|]. split; [apply le_string_bytes|]. split; [unfold u32, zlen; cbn [length]; lia|]. repeat constructor; discriminate. }
  split; [reflexivity|]. split; [repeat constructor|]. constructor; [|constructor]. apply zq_eq. vm_compute. reflexivity.
Qed.
(** nonce point G, message hash -gx: T is the point of CircEx.v and U is G *)
Definition exHash : list Z := be_string 32 (n - gx).
Definition exX : public_input := MkPI gx 27 exHash (MkCPI 1 (zval Tx) (zval Ty) gx gy).
Lemma ex_U : eff_U ri (be_value exHash) = Some (fp gx, fp gy).
Proof.
  unfold eff_U, exHash. rewrite be_value_string. replace ((n - gx) mod 256 ^ Z.of_nat 32) with (n - gx) by (vm_compute; reflexivity).
  transitivity (emul 1 base). { apply (emul_congr _ _ _ secp_base). apply Z.mod_divide; [discriminate|]. vm_compute. reflexivity. }
  exact (emul_1 base).
Qed.
Lemma ex_usable : usable exX.
Proof.
  split.
  { exists (fp gx, fp gy), ri, (Tx, Ty), (fp gx, fp gy). split; [exact G_nonce|]. split; [exact ri_ok|]. split; [exact T_eff|]. split; [exact ex_U|].
    repeat split; reflexivity. }
  split. { unfold pi_fits, cpi_fits, u256, exX. cbn [pi_r pi_rV pi_circuit cp_root cp_Tx cp_Ty cp_Ux cp_Uy]. repeat split; (discriminate || reflexivity || lia). }
  split; [apply be_string_bytes|]. unfold exX, cpi_list. cbn [pi_circuit cp_root cp_Tx cp_Ty cp_Ux cp_Uy].
  repeat (constructor; [vm_compute; reflexivity|]). constructor.
Qed.
