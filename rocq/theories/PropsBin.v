(** Property C61: how proofs and circuits are written and read (BinModel.v; BinSpec.v). *)
From Coq Require Import ZArith List Bool Lia.
From Verif Require Import Base Primes Field Zq Limb R1csModel CommitModel SigmaModel SigmaApi SumModel NizkModel TsModel TsSpec ReadSpec BinModel BinSpec BinProofs BinApi BinFits WasmModel WasmApi WasmEx.
Import ListNotations.
Local Open Scope Z_scope.

(** ** C61 *)
(** reading what was written gives the same proof or the same circuit *)
Theorem C61_proof_roundtrip : forall (G : Mod Fp) (E : Enc G) word, 33 < word -> word <= 2 ^ 64 ->
  forall (pb : E -> list Z) pp, point_codec word pb pp -> forall pf tail, nizk_fits word pf -> dec_nizk word pp (ser_nizk pb pf ++ tail) = Ok pf.
Proof. exact @nizk_roundtrip. Qed.
Print Assumptions C61_proof_roundtrip.

Theorem C61_proof_injective : forall (G : Mod Fp) (E : Enc G) word, 33 < word -> word <= 2 ^ 64 ->
  forall (pb : E -> list Z) pp, point_codec word pb pp ->
  forall pf pf', nizk_fits word pf -> nizk_fits word pf' -> ser_nizk pb pf = ser_nizk pb pf' -> pf = pf'.
Proof. exact @nizk_injective. Qed.
Print Assumptions C61_proof_injective.

Theorem C61_circuit_roundtrip : forall word, 33 < word -> word <= 2 ^ 64 ->
  forall I tail, instance_fits word I -> dec_instance word (ser_instance I ++ tail) = Ok I.
Proof. exact instance_roundtrip. Qed.
Print Assumptions C61_circuit_roundtrip.

(** a number that is no [usize] of the machine ([word] values) is never read: whatever bytes are
    accepted, every count and index of the result is below [word] *)
Theorem C61_read_fits : forall word b, is_bytes b ->
  (forall I, dec_instance word b = Ok I -> instance_fits word I) /\
  (forall (G : Mod Fp) (E : Enc G) (pp : list Z -> option E) pf, dec_nizk word pp b = Ok pf -> nizk_fits word pf).
Proof. exact (fun word b Hb => conj (fun I => instance_read_fits word b I Hb) (fun G E pp pf => nizk_read_fits word pp b pf Hb)). Qed.
Print Assumptions C61_read_fits.

(** the bytes of a proof are not unique: bytes added to an accepted proof leave it accepted *)
Theorem C61_trailing_refuted : forall (G : Mod Fp) (E : Enc G) H tr0 stream word (pp : list Z -> option E) circuit proof publicInput tail,
  is_bytes publicInput ->
  membership_verify H tr0 stream word pp circuit proof publicInput = Ok true ->
  membership_verify H tr0 stream word pp circuit (proof ++ tail) publicInput = Ok true.
Proof. exact @verify_trailing. Qed.
Print Assumptions C61_trailing_refuted.

(** and so do a different announced length k of a scalar and any other number of the same residue *)
Theorem C61_alias_refuted : forall (G : Mod Fp) (E : Enc G) word, 33 < word -> word <= 2 ^ 64 ->
  forall (pb : E -> list Z) pp, point_codec word pb pp -> forall rp rx l y k x,
  nizk_fits word (MkNizk rp rx (l ++ [y])) -> 32 <= k < word -> 0 <= x < 2 ^ 256 -> y = fp x ->
  dec_nizk word pp (ser_r1csproof pb rp ++ ser_vec ser_scalar rx ++ ser_usize (S (length l)) ++ flat_map ser_scalar l ++ le_string 8 k ++ le_string 32 x)
    = Ok (MkNizk rp rx (l ++ [y])).
Proof. exact @nizk_alias. Qed.
Print Assumptions C61_alias_refuted.

(** a proof with some commitments; its last scalar 5 written as p + 5 with length 40 *)
Definition ex_zk : zkproof exE := MkZK (E:=exE) [Some (fp 3)] [None] [MkDP (E:=exE) None (Some (fp 4)) [fp 1; fp 2] (fp 5) (fp 6)].
Definition ex_rp : r1csproof exE :=
  MkRP (E:=exE) [Some (fp 9); None] ex_zk (None, None, Some (fp 1), None) (MkKP (E:=exE) None (fp 1) (fp 2)) (MkPP (E:=exE) None None None (fp 1, fp 2, fp 3, fp 4, fp 5))
    (MkEP (E:=exE) None (fp 1)) ex_zk None (MkLP (E:=exE) (MkBP (E:=exE) [None] [Some (fp 2)]) None None (fp 1) (fp 2)) (MkEP (E:=exE) None (fp 8)).
Definition ex_nizk (last : Fp) : nizk exE := MkNizk (E:=exE) ex_rp [fp 3] ([fp 4] ++ [last]).
Example C61_case : point_codec (G:=exG) (E:=exE) (2 ^ 32) exPB exPP /\ nizk_fits (2 ^ 32) (ex_nizk (fp 5)) /\ nizk_fits (2 ^ 32) (ex_nizk (fp 6)) /\
  32 <= 40 < 2 ^ 32 /\ 0 <= p + 5 < 2 ^ 256 /\ fp 5 = fp (p + 5) /\
  instance_fits (2 ^ 32) (MkInstance (MkR1cs 2 4 1 (MkSparse 1 3 [MkEntry 1 7 (fp 5)]) (MkSparse 1 3 []) (MkSparse 1 3 [])) [7; 255]%nat).
Proof.
  split; [exact ex_codec|].
  assert (F : forall x, nizk_fits (2 ^ 32) (ex_nizk x)).
  { intro x. unfold nizk_fits, zk_fits, short, small, ex_nizk, ex_rp, ex_zk. cbn. repeat split; repeat constructor; lia. }
  split; [apply F|]. split; [apply F|]. split; [lia|]. split; [split; [discriminate|reflexivity]|]. split; [apply zq_eq; vm_compute; reflexivity|].
  unfold instance_fits, sparse_fits, short, small. cbn. repeat split; repeat constructor; cbn; lia.
Qed.
(** a constraint count of 2^32 is refused where [usize] has 32 bits and read where it has 64 *)
Example C61_read_case : let I := MkInstance (MkR1cs 2 4 1 (MkSparse 1 3 []) (MkSparse 1 3 []) (MkSparse 1 3 [])) [7]%nat in
  let b := le_bytes 8 (2 ^ 32) ++ skipn 8 (ser_instance I) in is_bytes b /\
  dec_instance (2 ^ 32) (ser_instance I) = Ok I /\ dec_instance (2 ^ 32) b = Err OtherErr /\ dec_instance 5 (ser_instance I) = Ok I /\ dec_instance 4 (ser_instance I) = Err OtherErr.
Proof. split; [repeat constructor; discriminate|]. repeat split; vm_compute; reflexivity. Qed.
