From Coq Require Import String ZArith List Bool Lia.
From Verif Require Import Base Primes Field Zq Limb LimbSpec LimbInt Vec MathModel PolyModel PolyProofs R1csModel R1csSpec R1csProofs R1csApi CommitModel CommitSpec CommitProofs SigmaModel BulletProofs SigmaApi SumModel SumApi NizkModel NizkApi PosModel PosSpec PosApi TsModel TsSpec TsProofs TsEff ReadModel ReadSpec ReadProofs ReadApi BinModel BinSpec BinProofs BinShape BinApi WasmModel WasmSpec WasmProofs.
Import ListNotations.
Local Open Scope Z_scope.

(** * Poseidon in TypeScript *)
Lemma u256_le v : u256 v -> bigIntToLeBytes v 32 = le_string 32 v.
Proof. intro H. unfold bigIntToLeBytes. rewrite u256_be by exact H. reflexivity. Qed.
Lemma set_inputs_ok l : forall pre i, length pre = (32 * i)%nat -> Forall u256 l ->
  set_inputs (pre ++ repeat 0 (32 * length l)) i l = Ok (pre ++ flat_map (le_string 32) l).
Proof.
  induction l as [|v l IH]; intros pre i L F; [reflexivity|]. inversion F as [|? ? F1 F2]; subst. cbn [set_inputs flat_map].
  rewrite u256_le by exact F1. rewrite (set_next (i * 32) pre (le_string 32 v)) by (rewrite ?le_string_length; cbn [length]; lia). cbn [bind].
  rewrite le_string_length. replace (32 * length (v :: l) - 32)%nat with (32 * length l)%nat by (cbn [length]; lia).
  rewrite (IH (pre ++ le_string 32 v) (S i)); [rewrite <- app_assoc; reflexivity| |exact F2]. rewrite app_length, le_string_length. lia.
Qed.
Lemma flat_le_length l : length (flat_map (le_string 32) l) = (32 * length l)%nat.
Proof. induction l as [|v l IH]; [reflexivity|]. cbn [flat_map length]. rewrite app_length, le_string_length, IH. lia. Qed.
Lemma hash_run l : Forall u256 l -> poseidon_hash l = (do r <- wasm_poseidon (flat_map (le_string 32) l); bytesLeToBigInt r).
Proof. intro F. unfold poseidon_hash. pose proof (set_inputs_ok l [] 0 eq_refl F) as X. cbn [app] in X. rewrite X. reflexivity. Qed.
Theorem hash_count l : Forall u256 l -> length l <> 2%nat -> poseidon_hash l = Panic.
Proof.
  intros F N. rewrite hash_run by exact F. unfold wasm_poseidon. rewrite flat_le_length. destruct (Nat.eqb_spec (32 * length l) 64); [lia|reflexivity].
Qed.
Lemma decode_le v : 0 <= v < 2 ^ 256 -> bytesLeToBigInt (le_string 32 v) = Ok v.
Proof. intro H. unfold bytesLeToBigInt, le_string. rewrite rev_involutive. apply decode_32. exact H. Qed.
Lemma split64 (a b : list Z) : length a = 32%nat -> length b = 32%nat -> firstn 32 (a ++ b) = a /\ skipn 32 (a ++ b) = b.
Proof. intros A B. rewrite firstn_app, skipn_app, A, firstn_all2, skipn_all2 by lia. change (32 - 32)%nat with 0%nat. cbn [firstn skipn app]. rewrite app_nil_r. auto. Qed.
Lemma le_back (h : Fp) : bytesLeToBigInt (le_bytes 32 (zval h)) = Ok (zval h).
Proof.
  pose proof (zval_range _ h) as R. rewrite le_bytes_string by lia. apply decode_le. split; [lia|]. apply (Z.lt_trans _ p); [lia|reflexivity].
Qed.
Lemma of_opt_Some {A} (v : A) : of_opt (Some v) = Ok v.
Proof. reflexivity. Qed.
Theorem hash_two x y : u256 x -> u256 y -> poseidon_hash [x; y] = if (x <? p) && (y <? p) then Ok (zval (pos2 (fp x) (fp y))) else Panic.
Proof.
  intros Hx Hy. rewrite hash_run by (constructor; [exact Hx|constructor; [exact Hy|constructor]]). cbn [flat_map]. rewrite app_nil_r. unfold wasm_poseidon.
  rewrite app_length, !le_string_length. change (Nat.eqb (32 + 32) 64) with true. cbv iota.
  destruct (split64 (le_string 32 x) (le_string 32 y) (le_string_length _ _) (le_string_length _ _)) as [-> ->].
  rewrite !le_parse_string by assumption. destruct (x <? p); [|reflexivity]. destruct (y <? p); [|reflexivity]. rewrite !of_opt_Some, !bind_Ok, k256_hash_ok, !bind_Ok. exact (le_back _).
Qed.
Lemma hex_firstn b : forall k, firstn (2 * k) (buffer_hex b) = buffer_hex (firstn k b).
Proof.
  induction b as [|x b IH]; intro k; [rewrite !firstn_nil; reflexivity|]. destruct k as [|k]; [reflexivity|]. replace (2 * S k)%nat with (S (S (2 * k))) by lia.
  unfold buffer_hex in *. cbn [flat_map app firstn]. rewrite IH. reflexivity.
Qed.
Lemma hex_skipn b : forall k, skipn (2 * k) (buffer_hex b) = buffer_hex (skipn k b).
Proof.
  induction b as [|x b IH]; intro k; [rewrite !skipn_nil; reflexivity|]. destruct k as [|k]; [reflexivity|]. replace (2 * S k)%nat with (S (S (2 * k))) by lia.
  unfold buffer_hex in *. cbn [flat_map app skipn]. rewrite IH. reflexivity.
Qed.
Lemma pubkey_run b : hashPubKey b = (do x <- bytesToBigInt (js_slice 0 32 b); do y <- bytesToBigInt (js_slice 32 64 b); poseidon_hash [x; y]).
Proof.
  pose proof (hex_firstn b 32) as A. pose proof (hex_skipn b 32) as B. pose proof (hex_firstn (skipn 32 b) 32) as C.
  change (2 * 32)%nat with 64%nat in A, B, C. unfold hashPubKey, js_slice, bytesToBigInt. change (64 - 0)%nat with 64%nat. change (128 - 64)%nat with 64%nat.
  change (32 - 0)%nat with 32%nat. change (64 - 32)%nat with 32%nat. change (skipn 0 (buffer_hex b)) with (buffer_hex b). change (skipn 0 b) with b.
  rewrite A, B, C. reflexivity.
Qed.
Theorem pubkey_hash x y t : u256 x -> u256 y -> hashPubKey (be_string 32 x ++ be_string 32 y ++ t) = poseidon_hash [x; y].
Proof.
  intros Hx Hy. rewrite pubkey_run. pose proof (be_string_length 32 x) as Lx. pose proof (be_string_length 32 y) as Ly.
  rewrite <- (app_nil_l (be_string 32 x ++ _)) at 1. rewrite slice_at by (rewrite ?Lx; reflexivity). rewrite decode_32 by exact Hx. cbn [bind].
  rewrite slice_at by (rewrite ?Lx, ?Ly; reflexivity). rewrite decode_32 by exact Hy. reflexivity.
Qed.
Theorem pubkey_short b : (length b <= 32)%nat -> hashPubKey b = Panic.
Proof.
  intro L. rewrite pubkey_run. rewrite (decode_past 32 64 b L). unfold bytesToBigInt, bigint_of_hex. destruct (buffer_hex _); reflexivity.
Qed.
(** the 65 bytes of an uncompressed key *)
Theorem pubkey_uncompressed x y : u256 x -> u256 y ->
  hashPubKey (4 :: be_string 32 x ++ be_string 32 y) = poseidon_hash [4 * 256 ^ 31 + x / 256; (x mod 256) * 256 ^ 31 + y / 256].
Proof.
  intros Hx Hy. 
  assert (Sp : forall v, be_string 32 v = be_string 31 (v / 256) ++ [v mod 256]).
  { assert (X : forall k v, be_string (S k) v = be_string k (v / 256) ++ [v mod 256]).
    { induction k as [|k IH]; intro v; [cbn [be_string app]; change (256 ^ Z.of_nat 0) with 1; rewrite Z.div_1_r; reflexivity|].
      change (be_string (S (S k)) v) with ((v / 256 ^ Z.of_nat (S k)) mod 256 :: be_string (S k) v). rewrite IH.
      change (be_string (S k) (v / 256)) with ((v / 256 / 256 ^ Z.of_nat k) mod 256 :: be_string k (v / 256)). cbn [app]. f_equal.
      rewrite Z.div_div by (lia || (apply Z.pow_pos_nonneg; lia)). rewrite Nat2Z.inj_succ, Z.pow_succ_r by lia. reflexivity. }
    intro v. apply X. }
  assert (Q : forall a v, 0 <= a < 256 -> u256 v -> a :: be_string 31 (v / 256) = be_string 32 (a * 256 ^ 31 + v / 256)).
  { intros a v Ha Hv. assert (B : 0 <= v / 256 < 256 ^ 31). { split; [apply Z.div_pos; unfold u256 in Hv; lia|]. apply Z.div_lt_upper_bound; [lia|]. exact (proj2 Hv). }
    change (be_string 32 (a * 256 ^ 31 + v / 256)) with ((a * 256 ^ 31 + v / 256) / 256 ^ Z.of_nat 31 mod 256 :: be_string 31 (a * 256 ^ 31 + v / 256)). change (Z.of_nat 31) with 31.
    f_equal.
    - rewrite Z.div_add_l by lia. rewrite (Z.div_small (v / 256)) by exact B. rewrite Z.add_0_r, Z.mod_small by exact Ha. reflexivity.
    - apply be_string_mod. change (Z.of_nat 31) with 31. rewrite Z.add_comm, Z.mod_add by lia. reflexivity. }
  rewrite (Sp x), (Sp y). rewrite <- app_assoc. cbn [app].
  change (4 :: be_string 31 (x / 256) ++ x mod 256 :: be_string 31 (y / 256) ++ [y mod 256]) with ((4 :: be_string 31 (x / 256)) ++ (x mod 256 :: be_string 31 (y / 256)) ++ [y mod 256]).
  pose proof (Z.mod_pos_bound x 256 ltac:(lia)) as Mx. rewrite (Q 4 x ltac:(lia) Hx), (Q _ y Mx Hy).
  unfold u256 in *. assert (D : forall v, 0 <= v < 2 ^ 256 -> 0 <= v / 256 < 2 ^ 248) by (intros v Hv; split; [apply Z.div_pos; lia|apply Z.div_lt_upper_bound; lia]).
  pose proof (D x Hx). pose proof (D y Hy). apply pubkey_hash; unfold u256; lia.
Qed.

(** * Membership proofs for nothing *)
Section F.
  Context {G : Mod Fp} {E : Enc G}.
  Variables (H : log E -> Fp) (tr0 : log E) (stream : nat -> G) (seed : Fp).
  Variables (word : Z) (pb : E -> list Z) (pp : list Z -> option E) (digest_of : r1cs Fp -> list nat).
  Local Notation prove := (membership_prove H tr0 stream seed word pb).
  Local Notation verify := (membership_verify H tr0 stream word pp).

  Lemma swap_0 : swap 0 < p.
  Proof. vm_compute. reflexivity. Qed.
  Theorem membership_complete c circuit {M} (gen : Z -> M -> Z * Z * Z * Z -> res (list Z)) r s v m root mp Tx Ty Ux Uy file :
    let x := MkPI r v m (MkCPI root Tx Ty Ux Uy) in
    environment word pb pp digest_of -> circuit_file digest_of c circuit -> usable x -> gen s mp (Tx, Ty, Ux, Uy) = Ok file -> witness_file c file ->
    (forall proof x', prove circuit gen r s v m root mp = Ok (proof, x') -> x' = x /\ verify circuit proof (pi_wire x) = Ok true) /\
    unless H "u" 0%fld (size_of (Z.to_nat (ci_wires c)) - size_of (Z.to_nat (ci_wires c)) / 2) (exists proof, prove circuit gen r s v m root mp = Ok (proof, x)).
  Proof.
    intros x ([W1 W2] & Pt & Dg) (prime & secs & tail & Hc & Hs & Hk & Hw & Hn & Lw & Lf & HG) (He & Fx & Bm & Sx) Hg (ver & wp & w & wtail & -> & Ww & Nw & Sw & Sat).
    assert (Ee : computeEff r v m = Ok (Tx, Ty, Ux, Uy)) by (apply computeEff_ok; split; [exact (proj1 (proj1 Fx))|exact He]).
    pose proof (membership_run H tr0 stream seed word pb pp W1 W2 Pt digest_of Dg gen circuit prime c secs tail ver wp w wtail r s v m root mp (Tx, Ty, Ux, Uy)) as X. cbv zeta beta in X.
    replace (Z.to_nat (ci_wires c)) with (length w) in * by (rewrite <- Nw; unfold zlen; rewrite Nat2Z.id; reflexivity).
    apply X; try assumption. rewrite Nw. exact Lw.
  Qed.

  Lemma zeros_witness c wp : 0 <= ci_wires c < 2 ^ 32 -> length wp = 32%nat -> is_bytes wp ->
    witness_file c (wtns_bytes 2 wp (32 * ci_wires c) (repeat 0 (Z.to_nat (ci_wires c)))).
  Proof.
    intros Uw Lp Bp. set (zeros := repeat 0 (Z.to_nat (ci_wires c))).
    assert (Lz : zlen zeros = ci_wires c) by (unfold zlen, zeros; rewrite repeat_length; lia).
    exists 2, wp, zeros, []. rewrite app_nil_r, Lz. split; [reflexivity|].
    split. { split; [lia|]. split; [exact Lp|]. split; [exact Bp|]. split; [unfold u32; lia|]. apply Forall_forall. intros v0 Hv. apply repeat_spec in Hv. subst v0. split; [lia|reflexivity]. }
    split; [reflexivity|]. split. { apply Forall_forall. intros v0 Hv. apply repeat_spec in Hv. subst v0. exact swap_0. }
    unfold zeros. replace (map fp (repeat 0 (Z.to_nat (ci_wires c)))) with (repeat (0%fld : Fp) (Z.to_nat (ci_wires c))); [apply circom_sat_zero|].
    generalize (Z.to_nat (ci_wires c)). intro k. induction k as [|k IH]; [reflexivity|]. cbn [repeat map]. rewrite <- IH. reflexivity.
  Qed.
  Theorem membership_forged c circuit wp r v m root Tx Ty Ux Uy :
    let x := MkPI r v m (MkCPI root Tx Ty Ux Uy) in
    let gen (_ : Z) (_ : unit) (_ : Z * Z * Z * Z) := Ok (wtns_bytes 2 wp (32 * ci_wires c) (repeat 0 (Z.to_nat (ci_wires c)))) in
    environment word pb pp digest_of -> circuit_file digest_of c circuit -> usable x -> length wp = 32%nat -> is_bytes wp ->
    (forall proof x', prove circuit gen r 0 v m root tt = Ok (proof, x') -> x' = x /\ verify circuit proof (pi_wire x) = Ok true) /\
    unless H "u" 0%fld (size_of (Z.to_nat (ci_wires c)) - size_of (Z.to_nat (ci_wires c)) / 2) (exists proof, prove circuit gen r 0 v m root tt = Ok (proof, x)).
  Proof.
    intros x gen He Hc Hu Lp Bp. assert (Uw : 0 <= ci_wires c < 2 ^ 32) by (destruct Hc as (prime & secs & tail & (U & _) & _); exact U).
    exact (membership_complete c circuit gen r 0 v m root tt Tx Ty Ux Uy _ He Hc Hu eq_refl (zeros_witness c wp Uw Lp Bp)).
  Qed.

  (** values whose bytes reversed reach p *)
  Lemma circuit_decodes c circuit : environment word pb pp digest_of -> circuit_file digest_of c circuit ->
    exists ii, dec_instance word circuit = Ok ii /\ rc_inputs (inst ii) = 5%nat.
  Proof.
    intros ([W1 W2] & Pt & Dg) (prime & secs & tail & Hc & Hs & Hk & Hw & Hn & Lw & Lf & HG). unfold gen_circuit in HG.
    destruct (load_as_spartan_inst digest_of (r1cs_bytes secs ++ tail) 5) as [ii| |] eqn:HI; try discriminate. cbn [bind] in HG. injection HG as <-. exists ii. split.
    - exact (circuit_read word W1 W2 digest_of Dg prime c secs tail ii Hc Hs Hk Hn Lw Lf HI).
    - destruct (load_new _ _ _ _ HI) as (r0 & m0 & Er & New). exact (proj1 (proj2 (new_sized _ _ _ _ _ _ _ _ _ _ _ _ New))).
  Qed.
  Theorem membership_blocked c circuit x : environment word pb pp digest_of -> circuit_file digest_of c circuit -> pi_fits x -> is_bytes (pi_msgHash x) ->
    ~ reversible (cpi_list (pi_circuit x)) ->
    (forall proof, verify circuit proof (pi_wire x) <> Ok true) /\
    forall M (gen : Z -> M -> Z * Z * Z * Z -> res (list Z)) r s v m root mp proof, prove circuit gen r s v m root mp <> Ok (proof, x).
  Proof.
    intros He Hc Fx Bm Hx. destruct (circuit_decodes c circuit He Hc) as (ii & Hi & L).
    assert (Q : forall y, (forall v, In v (cpi_list (pi_circuit y)) -> swap v < p) -> reversible (cpi_list (pi_circuit y))) by (intros y Y; apply Forall_forall; exact Y).
    split.
    - intros proof V. assert (Bx : is_bytes (pi_wire x)) by (apply (pi_serialize_bytes x); [exact Bm|apply pi_serialize_ok; exact Fx]).
      apply (verify_true H tr0 stream word pp _ _ _ Bx) in V. destruct V as (x' & D & _ & V). rewrite (pi_roundtrip _ Fx) in D. injection D as <-.
      apply (wasm_true H tr0 stream word pp _ _ _ ii Hi L) in V. destruct V as (F & _). exact (Hx F).
    - intros M gen r s v m root mp proof V. unfold membership_prove in V. destruct (computeEff r v m) as [[[[Tx Ty] Ux] Uy]| |]; try discriminate. cbn [bind] in V.
      destruct (gen s mp _) as [w| |]; try discriminate. cbn [bind] in V.
      destruct (cpi_serialize _) as [b| |] eqn:Eb; try discriminate. cbn [bind] in V.
      destruct (wasm_prove _ _ _ _ _ _ _ _ _) as [q| |] eqn:W; try discriminate. cbn [bind] in V. injection V as <- <-. cbn [pi_circuit] in *.
      destruct Fx as (_ & _ & Fc). cbn [pi_circuit] in Fc. rewrite (cpi_serialize_ok _ Fc) in Eb. injection Eb as <-.
      unfold wasm_prove in W. destruct (witness_assignment w); try discriminate. cbn [bind] in W. rewrite Hi in W. cbn [unwrap bind] in W.
      destruct (nizkgens_new _ _ _); try discriminate. cbn [bind] in W. rewrite (inputs_of_cpi ii _ L) in W.
      destruct (forallb _ _) eqn:Fa; [|discriminate]. rewrite forallb_forall in Fa. apply Hx. apply (Q (MkPI r v m (MkCPI root Tx Ty Ux Uy))). intros v0 Hv. apply Z.ltb_lt, Fa, Hv.
  Qed.
  Theorem verify_reject circuit proof x ii e : usable x -> dec_instance word circuit = Ok ii -> dec_nizk word pp proof = Err e -> verify circuit proof (pi_wire x) = Ok false.
  Proof.
    intros (He & Fx & Bm & _) Hi D. assert (Bx : is_bytes (pi_wire x)) by (apply (pi_serialize_bytes x); [exact Bm|apply pi_serialize_ok; exact Fx]).
    rewrite (verify_step _ _ _ _ _ _ _ _ x Bx (pi_roundtrip _ Fx)). rewrite (proj2 (verifyEff_true x) (conj (proj1 (proj1 Fx)) He)). cbn [bind].
    unfold wasm_verify. rewrite Hi, D. reflexivity.
  Qed.
  (** a changed proof that is accepted *)
  Theorem verify_trailing circuit proof b t : is_bytes b -> verify circuit proof b = Ok true -> verify circuit (proof ++ t) b = Ok true.
  Proof.
    intros Hb V. apply (verify_true H tr0 stream word pp _ _ _ Hb) in V. destruct V as (x & D & Ef & V). apply (verify_true H tr0 stream word pp _ _ _ Hb). exists x. split; [exact D|]. split; [exact Ef|].
    unfold wasm_verify in *. destruct (unwrap (dec_instance word circuit)) as [ii| |]; try discriminate. cbn [bind] in *.
    destruct (dec_nizk word pp proof) as [pf| |] eqn:Q; try discriminate. rewrite (nizk_trailing word pp _ t _ Q). exact V.
  Qed.
End F.
