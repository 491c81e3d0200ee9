(** Model of the Keccak-256 and Ethereum address circuits of
    packages/circuits/eff_ecdsa_membership/to_address and of the two templates that
    use them.  Signal arrays are lists; in [in[k*64+i]] for i = 0..63 a template reads
    lane number k.  Apart from Num2Bits there is no advice: every signal is assigned
    with [<==].  The bodies of theta, rhopi and chi were transcribed by a script. *)
From Coq Require Import ZArith List Bool Arith.
From Verif Require Import Base Primes Field Zq CircModel PosModel.
Import ListNotations.
Local Open Scope fld_scope.

Section Keccak.
  Context {K : Fld}.

  (** circomlib gates.circom: XOR *)
  Definition xor_gate (a b : K) : K := a + b - cst2 * a * b.
  (** to_address/vocdoni-keccak/utils.circom:37-102 (XorArray, XorArraySingle, OrArray, AndArray) *)
  Definition xor_array (a b : list K) : list K := map2 xor_gate a b.
  Definition xor_single (a : list K) : list K := map (fun x => xor_gate x 1) a.
  Definition or_array (a b : list K) : list K := map2 or_gate a b.
  Definition and_array (a b : list K) : list K := map2 and_gate a b.
  (** circomlib sha256/xor3.circom: Xor3, one bit *)
  Definition xor3_gate (a b c : K) : K :=
    let mid := b * c in
    a * (1 - cst2 * b - cst2 * c + cst2 * cst2 * mid) + b + c - cst2 * mid.
  Definition xor3 (a b c : list K) : list K := map2 (fun x f => f x) a (map2 (fun y z x => xor3_gate x y z) b c).
  (** to_address/vocdoni-keccak/utils.circom:7-35 (Xor5) *)
  Definition xor5 (a b c d e : list K) : list K := xor_array (xor_array (xor3 a b c) d) e.
  (** circomlib sha256/shift.circom: ShR *)
  Definition shr (n r : nat) (l : list K) : list K :=
    map (fun i => if (n <=? i + r)%nat then 0 else nth (i + r) l 0) (seq 0 n).
  (** to_address/vocdoni-keccak/utils.circom:104-115 (ShL) *)
  Definition shl (n r : nat) (l : list K) : list K :=
    map (fun i => if (i <? r)%nat then 0 else nth (i - r) l 0) (seq 0 n).

  Definition lane (k : nat) (l : list K) : list K := firstn 64 (skipn (k * 64) l).

  (** to_address/vocdoni-keccak/permutations.circom:8-36 (D(64, l, r)) *)
  Definition d_tmpl (l r : nat) (a b : list K) : list K := xor_array b (or_array (shr 64 r a) (shl 64 l a)).

  (** to_address/vocdoni-keccak/permutations.circom:38-348 (Theta) *)
  Definition theta (s : list K) : list K :=
    let c0 := xor5 (lane 0 s) (lane 5 s) (lane 10 s) (lane 15 s) (lane 20 s) in
    let c1 := xor5 (lane 1 s) (lane 6 s) (lane 11 s) (lane 16 s) (lane 21 s) in
    let c2 := xor5 (lane 2 s) (lane 7 s) (lane 12 s) (lane 17 s) (lane 22 s) in
    let c3 := xor5 (lane 3 s) (lane 8 s) (lane 13 s) (lane 18 s) (lane 23 s) in
    let c4 := xor5 (lane 4 s) (lane 9 s) (lane 14 s) (lane 19 s) (lane 24 s) in
    let d0 := d_tmpl 1 63 c1 c4 in
    let r0 := xor_array (lane 0 s) d0 in
    let r5 := xor_array (lane 5 s) d0 in
    let r10 := xor_array (lane 10 s) d0 in
    let r15 := xor_array (lane 15 s) d0 in
    let r20 := xor_array (lane 20 s) d0 in
    let d1 := d_tmpl 1 63 c2 c0 in
    let r1 := xor_array (lane 1 s) d1 in
    let r6 := xor_array (lane 6 s) d1 in
    let r11 := xor_array (lane 11 s) d1 in
    let r16 := xor_array (lane 16 s) d1 in
    let r21 := xor_array (lane 21 s) d1 in
    let d2 := d_tmpl 1 63 c3 c1 in
    let r2 := xor_array (lane 2 s) d2 in
    let r7 := xor_array (lane 7 s) d2 in
    let r12 := xor_array (lane 12 s) d2 in
    let r17 := xor_array (lane 17 s) d2 in
    let r22 := xor_array (lane 22 s) d2 in
    let d3 := d_tmpl 1 63 c4 c2 in
    let r3 := xor_array (lane 3 s) d3 in
    let r8 := xor_array (lane 8 s) d3 in
    let r13 := xor_array (lane 13 s) d3 in
    let r18 := xor_array (lane 18 s) d3 in
    let r23 := xor_array (lane 23 s) d3 in
    let d4 := d_tmpl 1 63 c0 c3 in
    let r4 := xor_array (lane 4 s) d4 in
    let r9 := xor_array (lane 9 s) d4 in
    let r14 := xor_array (lane 14 s) d4 in
    let r19 := xor_array (lane 19 s) d4 in
    let r24 := xor_array (lane 24 s) d4 in
    concat [r0; r1; r2; r3; r4; r5; r6; r7; r8; r9; r10; r11; r12; r13; r14; r15; r16; r17; r18; r19; r20; r21; r22; r23; r24].

  (** to_address/vocdoni-keccak/permutations.circom:352-374 (stepRhoPi) *)
  Definition step_rhopi (l r : nat) (a : list K) : list K := or_array (shr 64 r a) (shl 64 l a).
  (** to_address/vocdoni-keccak/permutations.circom:375-529 (RhoPi) *)
  Definition rhopi (s : list K) : list K :=
    let s10 := step_rhopi 1 63 (lane 1 s) in
    let s7 := step_rhopi 3 61 (lane 10 s) in
    let s11 := step_rhopi 6 58 (lane 7 s) in
    let s17 := step_rhopi 10 54 (lane 11 s) in
    let s18 := step_rhopi 15 49 (lane 17 s) in
    let s3 := step_rhopi 21 43 (lane 18 s) in
    let s5 := step_rhopi 28 36 (lane 3 s) in
    let s16 := step_rhopi 36 28 (lane 5 s) in
    let s8 := step_rhopi 45 19 (lane 16 s) in
    let s21 := step_rhopi 55 9 (lane 8 s) in
    let s24 := step_rhopi 2 62 (lane 21 s) in
    let s4 := step_rhopi 14 50 (lane 24 s) in
    let s15 := step_rhopi 27 37 (lane 4 s) in
    let s23 := step_rhopi 41 23 (lane 15 s) in
    let s19 := step_rhopi 56 8 (lane 23 s) in
    let s13 := step_rhopi 8 56 (lane 19 s) in
    let s12 := step_rhopi 25 39 (lane 13 s) in
    let s2 := step_rhopi 43 21 (lane 12 s) in
    let s20 := step_rhopi 62 2 (lane 2 s) in
    let s14 := step_rhopi 18 46 (lane 20 s) in
    let s22 := step_rhopi 39 25 (lane 14 s) in
    let s9 := step_rhopi 61 3 (lane 22 s) in
    let s6 := step_rhopi 20 44 (lane 9 s) in
    let s1 := step_rhopi 44 20 (lane 6 s) in
    concat [lane 0 s; s1; s2; s3; s4; s5; s6; s7; s8; s9; s10; s11; s12; s13; s14; s15; s16; s17; s18; s19; s20; s21; s22; s23; s24].

  (** to_address/vocdoni-keccak/permutations.circom:534-562 (stepChi) *)
  Definition step_chi (a b c : list K) : list K := xor_array a (and_array (xor_single b) c).
  (** to_address/vocdoni-keccak/permutations.circom:564-756 (Chi) *)
  Definition chi (s : list K) : list K :=
    let r0 := step_chi (lane 0 s) (lane 1 s) (lane 2 s) in
    let r1 := step_chi (lane 1 s) (lane 2 s) (lane 3 s) in
    let r2 := step_chi (lane 2 s) (lane 3 s) (lane 4 s) in
    let r3 := step_chi (lane 3 s) (lane 4 s) (lane 0 s) in
    let r4 := step_chi (lane 4 s) (lane 0 s) (lane 1 s) in
    let r5 := step_chi (lane 5 s) (lane 6 s) (lane 7 s) in
    let r6 := step_chi (lane 6 s) (lane 7 s) (lane 8 s) in
    let r7 := step_chi (lane 7 s) (lane 8 s) (lane 9 s) in
    let r8 := step_chi (lane 8 s) (lane 9 s) (lane 5 s) in
    let r9 := step_chi (lane 9 s) (lane 5 s) (lane 6 s) in
    let r10 := step_chi (lane 10 s) (lane 11 s) (lane 12 s) in
    let r11 := step_chi (lane 11 s) (lane 12 s) (lane 13 s) in
    let r12 := step_chi (lane 12 s) (lane 13 s) (lane 14 s) in
    let r13 := step_chi (lane 13 s) (lane 14 s) (lane 10 s) in
    let r14 := step_chi (lane 14 s) (lane 10 s) (lane 11 s) in
    let r15 := step_chi (lane 15 s) (lane 16 s) (lane 17 s) in
    let r16 := step_chi (lane 16 s) (lane 17 s) (lane 18 s) in
    let r17 := step_chi (lane 17 s) (lane 18 s) (lane 19 s) in
    let r18 := step_chi (lane 18 s) (lane 19 s) (lane 15 s) in
    let r19 := step_chi (lane 19 s) (lane 15 s) (lane 16 s) in
    let r20 := step_chi (lane 20 s) (lane 21 s) (lane 22 s) in
    let r21 := step_chi (lane 21 s) (lane 22 s) (lane 23 s) in
    let r22 := step_chi (lane 22 s) (lane 23 s) (lane 24 s) in
    let r23 := step_chi (lane 23 s) (lane 24 s) (lane 20 s) in
    let r24 := step_chi (lane 24 s) (lane 20 s) (lane 21 s) in
    concat [r0; r1; r2; r3; r4; r5; r6; r7; r8; r9; r10; r11; r12; r13; r14; r15; r16; r17; r18; r19; r20; r21; r22; r23; r24].

  (** to_address/vocdoni-keccak/permutations.circom:760-775 (RC) *)
  Definition rc_table : list Z := [
    0x0000000000000001; 0x0000000000008082; 0x800000000000808A;
    0x8000000080008000; 0x000000000000808B; 0x0000000080000001;
    0x8000000080008081; 0x8000000000008009; 0x000000000000008A;
    0x0000000000000088; 0x0000000080008009; 0x000000008000000A;
    0x000000008000808B; 0x800000000000008B; 0x8000000000008089;
    0x8000000000008003; 0x8000000000008002; 0x8000000000000080;
    0x000000000000800A; 0x800000008000000A; 0x8000000080008081;
    0x8000000000008080; 0x0000000080000001; 0x8000000080008008 ]%Z.
  (** (v >> i) & 1 for i = 0..n-1 *)
  Definition const_bits (n : nat) (v : Z) : list K := map (fun i => if Z.testbit v (Z.of_nat i) then 1 else 0) (seq 0 n).
  Definition rc_tmpl (r : nat) : list K := const_bits 64 (nth r rc_table 0%Z).
  (** to_address/vocdoni-keccak/permutations.circom:777-795 (Iota) *)
  Definition iota (r : nat) (s : list K) : list K := xor_array (lane 0 s) (rc_tmpl r) ++ skipn 64 s.

  (** to_address/vocdoni-keccak/keccak.circom:38-63 (KeccakfRound) *)
  Definition keccakf_round (r : nat) (s : list K) : list K := iota r (chi (rhopi (theta s))).
  (** to_address/vocdoni-keccak/keccak.circom:136-165 (Keccakf) *)
  Definition keccakf (s : list K) : list K := fold_left (fun s r => keccakf_round r s) (seq 0 24) s.

  (** to_address/vocdoni-keccak/keccak.circom:6-36 (Pad(nBits)) *)
  Definition pad (nBits : nat) (m : list K) : list K :=
    let out2 := firstn nBits m ++ const_bits 8 1 ++ repeat 0 (1088 - (nBits + 8)) in
    let aux := or_array (skipn 1080 out2) (const_bits 8 128) in
    firstn 1080 out2 ++ aux.
  (** to_address/vocdoni-keccak/keccak.circom:65-95 (Absorb) *)
  Definition absorb (s block : list K) : list K :=
    keccakf (concat (map (fun i => xor_array (lane i s) (lane i block)) (seq 0 17)) ++ skipn 1088 s).
  (** to_address/vocdoni-keccak/keccak.circom:97-119 (Final) *)
  Definition final (nBits : nat) (m : list K) : list K := absorb (repeat 0 1600) (pad nBits m).
  (** to_address/vocdoni-keccak/keccak.circom:121-134 (Squeeze) *)
  Definition squeeze (nBits : nat) (s : list K) : list K := firstn nBits s.
  (** to_address/vocdoni-keccak/keccak.circom:167-183 (Keccak) *)
  Definition keccak (nIn nOut : nat) (m : list K) : list K := squeeze nOut (final nIn m).

  (** to_address/zk-identity/eth.circom:57-91 (PubkeyToAddress) *)
  Definition pubkey_to_address (bits : list K) : K :=
    let reverse := map (fun i => nth (511 - i) bits 0) (seq 0 512) in
    let kin := flat_map (fun i => map (fun j => nth (8 * i + (7 - j)) reverse 0) (seq 0 8)) (seq 0 64) in
    let kout := keccak 512 256 kin in
    bits2num (flat_map (fun i => map (fun j => nth (256 - 8 * (i + 1) + j) kout 0) (seq 0 8)) (seq 0 20)).
End Keccak.

(** the advice of the address templates: that of EfficientECDSA and the bits of the
    two Num2Bits(256) *)
Record addr_adv := MkAddr { ad_ecdsa : mul_adv * ac_adv Fp; ad_x : list Fp; ad_y : list Fp }.

(** packages/circuits/eff_ecdsa_membership/eff_ecdsa_to_addr.circom:12-42
    (EfficientECDSAToAddr) *)
Definition eff_ecdsa_to_addr (w : addr_adv) (s Tx Ty Ux Uy : Fp) : option Fp :=
  let? q := eff_ecdsa (ad_ecdsa w) s Tx Ty Ux Uy in
  let? xb := num2bits 256 (ad_x w) (fst q) in
  let? yb := num2bits 256 (ad_y w) (snd q) in
  Some (pubkey_to_address (yb ++ xb)).

(** packages/circuits/eff_ecdsa_membership/addr_membership.circom:18-57
    (AddrMembership(nLevels)).  Its first 30 lines repeat EfficientECDSAToAddr. *)
Definition addr_membership (nLevels : nat) (w : addr_adv)
    (s root Tx Ty Ux Uy : Fp) (path sibs : list Fp) : bool :=
  match eff_ecdsa_to_addr w s Tx Ty Ux Uy with
  | None => false
  | Some addr =>
      match merkle cc_poseidon nLevels addr path sibs with
      | None => false
      | Some r => feqb root r
      end
  end.
