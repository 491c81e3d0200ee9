(** C67, C68: the conversions of the TypeScript library. *)
From Coq Require Import ZArith List Bool.
From Verif Require Import Base TsModel TsSpec ReadSpec UtilModel UtilApi.
Import ListNotations.
Local Open Scope Z_scope.

(** C67: a number below 256^k is written as its k bytes *)
Theorem C67_to_bytes (k : nat) (n : Z) : 0 <= n < 256 ^ Z.of_nat k ->
  bigIntToBytes n k = be_string k n /\ bigIntToLeBytes n k = rev (be_string k n).
Proof. exact (to_bytes k n). Qed.
Print Assumptions C67_to_bytes.

(** C67: bytes are read as the number they stand for; the empty array throws *)
Theorem C67_from_bytes (b : list Z) : is_bytes b ->
  (b <> [] -> bytesToBigInt b = Ok (be_value b) /\ bytesLeToBigInt b = Ok (be_value (rev b))) /\
  (b = [] -> bytesToBigInt b = Panic /\ bytesLeToBigInt b = Panic).
Proof. exact (from_bytes_all b). Qed.
Print Assumptions C67_from_bytes.

(** C67: both round trips, in both byte orders *)
Theorem C67_number_roundtrip (k : nat) (n : Z) : (0 < k)%nat -> 0 <= n < 256 ^ Z.of_nat k ->
  bytesToBigInt (bigIntToBytes n k) = Ok n /\ bytesLeToBigInt (bigIntToLeBytes n k) = Ok n.
Proof. exact (round_number k n). Qed.
Print Assumptions C67_number_roundtrip.
Theorem C67_bytes_roundtrip (b : list Z) : is_bytes b -> b <> [] ->
  (exists n, bytesToBigInt b = Ok n /\ bigIntToBytes n (length b) = b) /\
  (exists n, bytesLeToBigInt b = Ok n /\ bigIntToLeBytes n (length b) = b).
Proof. exact (round_bytes b). Qed.
Print Assumptions C67_bytes_roundtrip.

Example C67_case : bigIntToBytes 258 3 = [0; 1; 2] /\ bigIntToLeBytes 258 3 = [2; 1; 0] /\
  bytesToBigInt [0; 1; 2] = Ok 258 /\ bytesLeToBigInt [2; 1; 0] = Ok 258 /\ bytesLeToBigInt [0; 1; 2] = Ok 131328.
Proof. vm_compute. repeat split. Qed.

(** C67 for numbers that do not fit: no error.  A negative number becomes fewer than k
    zero bytes, and a number with one hexadecimal digit too many loses its last digit. *)
Theorem C67_negative_refuted (k : nat) (n : Z) : n < 0 -> (0 < k)%nat ->
  exists j, (j < k)%nat /\ bigIntToBytes n k = repeat 0 j /\ bigIntToLeBytes n k = repeat 0 j.
Proof. exact (negative k n). Qed.
Print Assumptions C67_negative_refuted.
Theorem C67_overflow_refuted (k : nat) (n : Z) : (0 < k)%nat -> 256 ^ Z.of_nat k <= n < 16 * 256 ^ Z.of_nat k ->
  bigIntToBytes n k = bigIntToBytes (n / 16) k.
Proof. exact (overflow k n). Qed.
Print Assumptions C67_overflow_refuted.
Example C67_refuted_case : bigIntToBytes (-5) 2 = [0] /\ bigIntToBytes (-515) 2 = [] /\ bigIntToBytes 433 1 = [27] /\ bigIntToBytes 27 1 = [27].
Proof. vm_compute. repeat split. Qed.

(** C68: r, s and the recovery value of a signature; everything after byte 64 belongs to
    the recovery value, and values below 27 are raised by 27 *)
Theorem C68_signature (r s v : Z) (t : list Z) : u256 r -> u256 s -> 0 <= v < 256 -> is_bytes t ->
  fromSig (be_string 32 r ++ be_string 32 s ++ v :: t) =
    Ok (r, s, let w := be_value (v :: t) in if w <? 27 then w + 27 else w).
Proof. exact (sig_long r s v t). Qed.
Print Assumptions C68_signature.

(** C68: the compact form, with the recovery bit in the top bit of s *)
Theorem C68_compact (r s : Z) (odd : bool) : u256 r -> 0 <= s < 2 ^ 255 ->
  fromSig (be_string 32 r ++ be_string 32 (s + (if odd then 2 ^ 255 else 0))) = Ok (r, s, if odd then 28 else 27).
Proof. exact (sig_compact r s odd). Qed.
Print Assumptions C68_compact.

(** C68: shorter strings throw *)
Theorem C68_short (b : list Z) : (length b < 64)%nat -> fromSig b = Panic.
Proof. exact (sig_short b). Qed.
Print Assumptions C68_short.

Example C68_case : u256 5 /\ fromSig (be_string 32 5 ++ be_string 32 9 ++ [1]) = Ok (5, 9, 28) /\
  fromSig (be_string 32 5 ++ be_string 32 9 ++ [27]) = Ok (5, 9, 27) /\ fromSig (be_string 32 5 ++ be_string 32 (9 + 2 ^ 255)) = Ok (5, 9, 28) /\
  fromSig (be_string 32 5 ++ be_string 32 9 ++ [1; 177]) = Ok (5, 9, 433).
Proof. vm_compute. repeat split; discriminate. Qed.

(** C68 for recovery values of more than one byte: the public input of such a signature
    is written with another recovery value *)
Theorem C68_wide_v_refuted (r v : Z) (m : list Z) (c : circuit_pub) : 256 <= v < 4096 ->
  pi_serialize (MkPI r v m c) = pi_serialize (MkPI r (v / 16) m c).
Proof. exact (sig_wire r v m c). Qed.
Print Assumptions C68_wide_v_refuted.
