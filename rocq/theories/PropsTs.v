(** Properties C47 and C48: the TypeScript library's public input (TsModel.v).  A thrown
    exception is [Panic]; [pi_wire], [pi_fits], [nonce_point] and [eff_inputs] are in
    TsSpec.v, [eff_T], [eff_U] and [ecdsa_ok] in CircSpec.v. *)
From Coq Require Import ZArith List Bool.
From Verif Require Import Base Primes Field Zq CurveSpec Secp CircSpec CircEx TsModel TsSpec TsProofs TsEff TsEx.
Import ListNotations.
Local Open Scope Z_scope.

(** ** C47 *)
(** every public input whose values fit is written in the wire format *)
Theorem C47_layout : forall x, pi_fits x -> pi_serialize x = Ok (pi_wire x).
Proof. exact pi_serialize_ok. Qed.
Print Assumptions C47_layout.

(** serialising and deserialising gives the public input back exactly when its values fit *)
Theorem C47_roundtrip : forall x, is_bytes (pi_msgHash x) ->
  (bind (pi_serialize x) pi_deserialize = Ok x <-> pi_fits x).
Proof. exact pi_roundtrip_iff. Qed.
Print Assumptions C47_roundtrip.

(** deserialising throws below 162 bytes; from 193 bytes on it is the inverse of the wire
    format, so a string decodes to one public input and is the only string that does *)
Theorem C47_decode : forall b, is_bytes b ->
  ((length b <= 161)%nat -> pi_deserialize b = Panic) /\
  ((161 < length b)%nat -> exists x, pi_deserialize b = Ok x /\ pi_fits x /\ is_bytes (pi_msgHash x) /\
    pi_msgHash x = skipn 193 b /\ ((193 <= length b)%nat -> pi_wire x = b)).
Proof. exact pi_decode. Qed.
Print Assumptions C47_decode.

Theorem C47_circuit_layout : forall c, cpi_fits c -> cpi_serialize c = Ok (cpi_wire c) /\ cpi_deserialize (cpi_wire c) = Ok c.
Proof. intros c H. exact (conj (cpi_serialize_ok c H) (cpi_roundtrip c H)). Qed.
Print Assumptions C47_circuit_layout.

(** an input that fits; v = 310 (an EIP-155 signature of chain 137) does not and comes back as 19 *)
Example C47_case : pi_fits exPI /\ is_bytes (pi_msgHash exPI) /\ length (pi_wire exPI) = 196%nat /\
  bind (pi_serialize exPI) pi_deserialize = Ok exPI /\
  bind (pi_serialize exEip155) pi_deserialize = Ok (MkPI 7 19 [1; 2; 255] exCPI).
Proof.
  split; [exact exPI_fits|]. split; [repeat constructor; discriminate|]. split; [reflexivity|].
  split; vm_compute; reflexivity.
Qed.

(** ** C48 *)
Theorem C48_iff : forall x, verifyEff x = Ok true <-> 0 <= pi_r x /\ eff_of x.
Proof. exact verifyEff_true. Qed.
Print Assumptions C48_iff.

(** the exact inputs on which the check throws instead of answering *)
Theorem C48_throws : forall x, verifyEff x = Panic <->
  pi_r x < 0 \/ (forall R, ~ nonce_point (pi_r x) (pi_rV x) R) \/ (n | pi_r x) \/ (n | be_value (pi_msgHash x)).
Proof. exact verifyEff_throws. Qed.
Print Assumptions C48_throws.

Theorem C48_total : forall x, verifyEff x = Panic \/ exists b, verifyEff x = Ok b.
Proof. exact verifyEff_total. Qed.
Print Assumptions C48_total.

(** nothing but the parity of v matters *)
Theorem C48_parity : forall r v v' m c, Z.odd v = Z.odd v' -> verifyEff (MkPI r v m c) = verifyEff (MkPI r v' m c).
Proof. exact verifyEff_parity. Qed.
Print Assumptions C48_parity.

(** with an accepted public input, the key s T + U of the circuit verifies the ECDSA signature (r, s) on the message hash *)
Theorem C48_ecdsa : forall x s, verifyEff x = Ok true -> 0 < pi_r x < n -> 0 < s < n ->
  let c := pi_circuit x in
  let T := Some (fp (cp_Tx c), fp (cp_Ty c)) in let U := Some (fp (cp_Ux c), fp (cp_Uy c)) in
  ecdsa_ok (eadd (emul s T) U) (be_value (pi_msgHash x)) (pi_r x) s.
Proof. exact verifyEff_ecdsa. Qed.
Print Assumptions C48_ecdsa.

(** nonce point G, message hash 5: accepted with its T and U, rejected with others, and a
    message hash of zero throws *)
Example C48_case : (exists U, eff_U ri 5 = Some U /\
    forall root, verifyEff (MkPI gx 27 [5] (MkCPI root (zval Tx) (zval Ty) (zval (fst U)) (zval (snd U)))) = Ok true) /\
  (forall root, verifyEff (MkPI gx 27 [5] (MkCPI root 0 0 0 0)) = Ok false) /\
  (forall c, verifyEff (MkPI gx 27 [] c) = Panic) /\ 0 < gx < n.
Proof.
  split; [exact case_true|]. split; [exact case_false|]. split; [|split; reflexivity].
  intro c. apply C48_throws. right. right. right. exists 0. reflexivity.
Qed.
