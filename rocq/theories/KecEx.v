(** The Keccak model over the two-element field is a fast program for Keccak-256.
    Known digests and addresses, and a key whose address is ambiguous. *)
From Coq Require Import ZArith List Bool Arith Lia Field Ring.
From Verif Require Import Base Primes Field Zq CurveSpec CurveProofs Secp SecpOrder CircModel CircSpec CircProofs CircBits CircMul CircTable CircApi CircEx.
From Verif Require Import PosModel PosSpec PosProofs PosApi KecModel KecSpec KecProofs KecApi.
Import ListNotations.
Local Open Scope Z_scope.

Lemma f2_theory : field_theory false true xorb andb xorb (fun x => x) andb (fun x => x) (@eq bool).
Proof.
  split; [split|discriminate| |]; try (intros; destruct x; try destruct y; try destruct z; reflexivity).
  - reflexivity.
  - intros [|] H; [reflexivity|contradiction].
Qed.
Definition F2 : Fld := MkFld bool false true xorb andb xorb (fun x => x) andb (fun x => x) f2_theory eq_refl eqb
  (fun x y => iff_reflect _ _ (iff_sym (eqb_true_iff x y))).

Definition fast256 (m : list bool) : list bool := @keccak F2 (length m) 256 m.
Lemma map_bit_f2 (m : list bool) : map (@bit_of F2) m = m.
Proof. induction m as [|[|] m IH]; cbn; [reflexivity|f_equal; exact IH..]. Qed.
Lemma fast256_ok m : (length m <= 1080)%nat -> fast256 m = keccak256 m.
Proof. intro L. pose proof (@keccak_ok F2 m L) as E. rewrite !map_bit_f2 in E. exact E. Qed.
Lemma fast_address X Y : eth_address X Y =
  be_num (skipn 12 (bytes_of_bits 32 (fast256 (flat_map byte_bits (be_bytes 32 X ++ be_bytes 32 Y))))).
Proof.
  unfold eth_address. rewrite fast256_ok; [reflexivity|]. rewrite key_length. apply Nat.leb_le. reflexivity.
Qed.

(** Keccak-256 of the empty string *)
Lemma digest_empty : be_num (bytes_of_bits 32 (keccak256 [])) = 0xc5d2460186f7233c927e7db2dcc703c0e500b653ca82273b7bfad8045d85a470.
Proof. rewrite <- fast256_ok by apply Nat.le_0_l. vm_compute. reflexivity. Qed.
(** the address of the secret key 1 *)
Lemma address_base : eth_address gx gy = 0x7E5F4552091A69125d5DfCb7b8C2659029395Bdf.
Proof. rewrite fast_address. vm_compute. reflexivity. Qed.

(** the point with x coordinate 1, as 24 T + U *)
Definition y1 : Z := 0x4218f20ae6c646b363db68605822fb14264ca8d2587fdd6fbc750d587e76a7ee.
Definition ux1 : Z := 0x99c4ea536e30f83d7882ed9d48a25eb4e1da98c7ac9bebd4760ec41faaeea8dc.
Definition uy1 : Z := 0x4f800fd0e4adae3bc4046ba5ccc32acf245980974ce9125f6e261a2f6d032d82.
Definition l1 : Z := 0x3380ac0a7ddec36541b1086788b19c6be97e571b9c31a8174b39f5e5073947e4.
Definition U1 : option (Fp * Fp) := Some (fp ux1, fp uy1).
Lemma U1_on : on_secp U1.
Proof. apply (onE secp). rewrite <- !fp_mul. change (cb secp) with (fp 7). rewrite <- fp_add. apply fp_eq. vm_compute. reflexivity. Qed.
Lemma Q1_on : on_secp (Some (fp 1, fp y1)).
Proof. apply (onE secp). rewrite <- !fp_mul. change (cb secp) with (fp 7). rewrite <- fp_add. apply fp_eq. vm_compute. reflexivity. Qed.
Definition m24 : Z * Z := Eval vm_compute in match row_of 96 with Some a => a | None => (0, 0) end.
Lemma m24_ok : emul 24 (Some (Tx, Ty)) = Some (fp (fst m24), fp (snd m24)).
Proof. rewrite T_mul. apply row_of_ok. vm_compute. reflexivity. Qed.
Lemma m24_sum : eadd (Some (fp (fst m24), fp (snd m24))) U1 = Some (fp 1, fp y1).
Proof.
  apply add_incomplete_iff; [intro E; apply fp_eq in E; vm_compute in E; discriminate|].
  exists (fp (- l1)). unfold add_incomplete. rewrite <- !fp_sub, <- !fp_mul, <- !fp_sub, <- !fp_mul, <- !fp_sub.
  destruct (feqb_spec Fp (fp ((fst m24 - ux1) * - l1)) (fp (snd m24 - uy1))) as [_|B]; [|exfalso; apply B, fp_eq; vm_compute; reflexivity]. do 2 f_equal; apply fp_eq; vm_compute; reflexivity.
Qed.
Lemma m24_nondeg : ~ degenerate (emul 24 (Some (Tx, Ty))) U1.
Proof. rewrite m24_ok. intros [_ D]. cbn [enc fst snd U1] in D. rewrite <- fp_add, <- fp_1 in D. apply fp_eq in D. vm_compute in D. discriminate. Qed.
Lemma key1 : exists w, eff_ecdsa w (fp 24) Tx Ty (fp ux1) (fp uy1) = Some (fp 1, fp y1).
Proof.
  exists (h_eff fdiv (fp 24) Tx Ty (fp ux1) (fp uy1)).
  pose proof (eff_honest_api fdiv (fp 24) Tx Ty U1 (fdiv_division Fp) T_point U1_on no_loss_24 tail_24 m24_nondeg) as E.
  change (zval (fp 24)) with 24 in E. rewrite m24_ok, m24_sum in E. exact E.
Qed.
Lemma key1_two : eth_address 1 y1 <> eth_address (1 + p) y1.
Proof. rewrite !fast_address. vm_compute. discriminate. Qed.
