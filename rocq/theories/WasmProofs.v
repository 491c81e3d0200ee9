From Coq Require Import String ZArith List Bool Lia.
From Verif Require Import Base Primes Field Zq Limb LimbSpec LimbInt Vec MathModel PolyModel PolyProofs R1csModel R1csSpec R1csProofs R1csApi CommitModel CommitSpec CommitProofs SigmaModel BulletProofs SigmaApi SumModel SumApi NizkModel NizkApi PosModel PosSpec PosApi TsModel TsSpec TsProofs TsEff ReadModel ReadSpec ReadProofs ReadApi BinModel BinSpec BinProofs BinShape WasmModel WasmSpec.
Import ListNotations.
Local Open Scope Z_scope.

(** * Public inputs *)
Lemma le_parse_be v : le_parse (be_string 32 v) = if swap v <? p then Some (fp (swap v)) else None.
Proof. unfold le_parse. rewrite of_le_be. reflexivity. Qed.
Lemma chunks_ok l tail : chunks (length l) (flat_map (be_string 32) l ++ tail) = Ok (map (be_string 32) l).
Proof.
  induction l as [|v l IH]; [reflexivity|]. cbn [length chunks flat_map map]. rewrite !app_length, be_string_length.
  destruct (Nat.leb_spec 32 (32 + length (flat_map (be_string 32) l) + length tail)); [|lia].
  pose proof (be_string_length 32 v) as Lv. rewrite <- app_assoc, firstn_app, skipn_app, Lv, firstn_all2, skipn_all2 by lia.
  change (32 - 32)%nat with 0%nat. cbn [firstn skipn app]. rewrite IH, app_nil_r. reflexivity.
Qed.
Lemma assignment_be l : assignment_new le_parse (map (be_string 32) l) =
  if forallb (fun v => swap v <? p) l then Ok (map (fun v => fp (swap v)) l) else Err InvalidScalar.
Proof.
  induction l as [|v l IH]; [reflexivity|]. cbn [map assignment_new forallb]. rewrite le_parse_be. destruct (swap v <? p); [|reflexivity].
  rewrite IH. cbn [andb]. destruct (forallb _ l); reflexivity.
Qed.
Lemma inputs_of_ok (ii : instance Fp (list nat)) l tail : rc_inputs (inst ii) = length l ->
  inputs_of ii (flat_map (be_string 32) l ++ tail) = if forallb (fun v => swap v <? p) l then Ok (map (fun v => fp (swap v)) l) else Panic.
Proof.
  intro L. unfold inputs_of. rewrite L, chunks_ok. cbn [bind]. unfold assignment_unwrap. rewrite assignment_be. destruct (forallb _ l); reflexivity.
Qed.
Lemma cpi_wire_flat c : cpi_wire c = flat_map (be_string 32) (cpi_list c).
Proof. unfold cpi_wire, cpi_list. cbn [flat_map]. rewrite app_nil_r. reflexivity. Qed.
Lemma inputs_of_cpi (ii : instance Fp (list nat)) c : rc_inputs (inst ii) = 5%nat ->
  inputs_of ii (cpi_wire c) = if forallb (fun v => swap v <? p) (cpi_list c) then Ok (map (fun v => fp (swap v)) (cpi_list c)) else Panic.
Proof. intro L. rewrite cpi_wire_flat, <- (app_nil_r (flat_map _ _)). apply inputs_of_ok. exact L. Qed.

(** * Generators *)
Lemma nizkgens_ok {G : Mod Fp} nv ni (stream : nat -> G) : exists g, nizkgens_new nv ni stream = Ok g.
Proof.
  unfold nizkgens_new, r1csgens_new. destruct (pad_vars_spec nv ni) as (_ & P & N). 
  rewrite (log2_up_pow _ N), log_2_pow. cbn [bind]. unfold pcgens_new, compute_factored_lens, snd. rewrite dgens_new_ok. cbn [bind]. eauto.
Qed.
Lemma nizkgens_pad {G : Mod Fp} nv ni (stream : nat -> G) : nizkgens_new (pad_vars nv ni) ni stream = nizkgens_new nv ni stream.
Proof.
  unfold nizkgens_new. f_equal. destruct (pad_vars_spec nv ni) as (_ & P & N). rewrite pad_vars_eq at 1.
  rewrite Nat.max_l by lia. exact N.
Qed.

Section W.
  Context {G : Mod Fp} {E : Enc G}.
  Variables (H : log E -> Fp) (tr0 : log E) (stream : nat -> G) (seed : Fp).
  Variables (word : Z) (pb : E -> list Z) (pp : list Z -> option E).
  Local Notation prove := (membership_prove H tr0 stream seed word pb).
  Local Notation verify := (membership_verify H tr0 stream word pp).
  Local Notation wprove := (wasm_prove H tr0 stream seed word pb).
  Local Notation wverify := (wasm_verify H tr0 stream word pp).

  Lemma decode_fits b x : is_bytes b -> pi_deserialize b = Ok x -> pi_fits x /\ is_bytes (pi_msgHash x).
  Proof.
    intros Hb X. destruct (pi_decode b Hb) as [D1 D2]. destruct (Nat.le_gt_cases (length b) 161) as [L|L].
    - rewrite (D1 L) in X. discriminate.
    - destruct (D2 L) as (y & Y & F & M & _). rewrite X in Y. injection Y as ->. auto.
  Qed.
  (** the decision *)
  Lemma verify_step circuit proof b x : is_bytes b -> pi_deserialize b = Ok x ->
    verify circuit proof b = (do v <- verifyEff x; Ok (match wverify circuit proof (cpi_wire (pi_circuit x)) with Ok c => c | _ => false end && v)).
  Proof.
    intros Hb X. unfold membership_verify. rewrite X. cbn [bind]. destruct (decode_fits b x Hb X) as ((_ & _ & F) & _). rewrite (cpi_serialize_ok _ F). reflexivity.
  Qed.
  Theorem verify_true circuit proof b : is_bytes b ->
    (verify circuit proof b = Ok true <->
     exists x, pi_deserialize b = Ok x /\ eff_of x /\ wverify circuit proof (cpi_wire (pi_circuit x)) = Ok true).
  Proof.
    intro Hb. split.
    - intro V. destruct (pi_deserialize b) as [x|e|] eqn:X; [|unfold membership_verify in V; rewrite X in V; discriminate V..].
      rewrite (verify_step _ _ _ _ Hb X) in V. exists x. split; [reflexivity|]. destruct (verifyEff x) as [[|]| |] eqn:Ef; cbn [bind] in V; try discriminate.
      + split; [apply (verifyEff_true x); exact Ef|]. destruct (wverify _ _ _) as [[|]| |]; (reflexivity || discriminate).
      + rewrite andb_false_r in V. discriminate.
    - intros (x & X & Ef & W). rewrite (verify_step _ _ _ _ Hb X). destruct (decode_fits b x Hb X) as (((R & _) & _) & _).
      rewrite (proj2 (verifyEff_true x) (conj R Ef)), W. reflexivity.
  Qed.
  Theorem verify_throws circuit proof b : is_bytes b ->
    (verify circuit proof b = Panic <-> pi_deserialize b = Panic \/ exists x, pi_deserialize b = Ok x /\ verifyEff x = Panic).
  Proof.
    intro Hb. destruct (pi_deserialize b) as [x|e|] eqn:X.
    - rewrite (verify_step _ _ _ _ Hb X). split.
      + intro V. right. exists x. split; [reflexivity|]. destruct (verifyEff_total x) as [Y|[v Y]]; [exact Y|]. rewrite Y in V. discriminate V.
      + intros [V|(y & Y & V)]; [discriminate V|]. injection Y as <-. rewrite V. reflexivity.
    - exfalso. destruct (pi_decode b Hb) as [D1 D2]. destruct (Nat.le_gt_cases (length b) 161) as [L|L]; [rewrite (D1 L) in X; discriminate|].
      destruct (D2 L) as (y & Y & _). congruence.
    - unfold membership_verify. rewrite X. split; [intros _; left; reflexivity|reflexivity].
  Qed.
  Theorem verify_total circuit proof b : is_bytes b -> verify circuit proof b = Panic \/ exists v, verify circuit proof b = Ok v.
  Proof.
    intro Hb. destruct (pi_decode b Hb) as [D1 D2]. destruct (Nat.le_gt_cases (length b) 161) as [L|L].
    - left. apply (verify_throws _ _ _ Hb). left. exact (D1 L).
    - destruct (D2 L) as (x & X & _). rewrite (verify_step _ _ _ _ Hb X). destruct (verifyEff_total x) as [Y|[v Y]]; rewrite Y; [left; reflexivity|right; eexists; reflexivity].
  Qed.
  (** what the wasm verifier accepts *)
  Theorem wasm_true circuit proof (c : circuit_pub) ii : dec_instance word circuit = Ok ii -> rc_inputs (inst ii) = 5%nat ->
    (wverify circuit proof (cpi_wire c) = Ok true <->
     Forall (fun v => swap v < p) (cpi_list c) /\
     exists pf g tr, dec_nizk word pp proof = Ok pf /\ nizkgens_new (rc_vars (inst ii)) 5 stream = Ok g /\
       nizk_verify H pf ii (map (fun v => fp (swap v)) (cpi_list c)) tr0 g = Ok tr).
  Proof.
    intros Hi L. unfold wasm_verify. rewrite Hi. cbn [unwrap bind]. rewrite L. destruct (nizkgens_ok (rc_vars (inst ii)) 5 stream) as [g Hg]. rewrite Hg.
    assert (Q : forallb (fun v => swap v <? p) (cpi_list c) = true <-> Forall (fun v => swap v < p) (cpi_list c)).
    { rewrite forallb_forall, Forall_forall. split; intros A x Hx; apply Z.ltb_lt, A, Hx. }
    rewrite (inputs_of_cpi ii c L). destruct (dec_nizk word pp proof) as [pf|e0|]; cbn [unwrap bind].
    - destruct (forallb _ _) eqn:F; cbn [bind].
      + destruct (nizk_verify H pf ii _ tr0 g) as [tr|e|] eqn:V.
        * split; [intros _|reflexivity]. split; [apply Q; reflexivity|]. exists pf, g, tr. auto.
        * split; [discriminate|]. intros (_ & pf' & g' & tr & A & B & C). injection A as <-. injection B as <-. congruence.
        * split; [discriminate|]. intros (_ & pf' & g' & tr & A & B & C). injection A as <-. injection B as <-. congruence.
      + split; [discriminate|]. intros (A & _). apply Q in A. discriminate.
    - split; [discriminate|]. intros (_ & pf & g' & tr & A & _). discriminate.
    - split; [discriminate|]. intros (_ & pf & g' & tr & A & _). discriminate.
  Qed.
  (** and when it rejects or panics *)
  Theorem wasm_false circuit proof (c : circuit_pub) ii : dec_instance word circuit = Ok ii -> rc_inputs (inst ii) = 5%nat ->
    (wverify circuit proof (cpi_wire c) = Ok false <->
     Forall (fun v => swap v < p) (cpi_list c) /\
     exists pf g e, dec_nizk word pp proof = Ok pf /\ nizkgens_new (rc_vars (inst ii)) 5 stream = Ok g /\
       nizk_verify H pf ii (map (fun v => fp (swap v)) (cpi_list c)) tr0 g = Err e) /\
    (wverify circuit proof (cpi_wire c) = Panic <->
     ~ Forall (fun v => swap v < p) (cpi_list c) \/ (forall pf, dec_nizk word pp proof <> Ok pf) \/
     exists pf g, dec_nizk word pp proof = Ok pf /\ nizkgens_new (rc_vars (inst ii)) 5 stream = Ok g /\
       nizk_verify H pf ii (map (fun v => fp (swap v)) (cpi_list c)) tr0 g = Panic).
  Proof.
    intros Hi L. unfold wasm_verify. rewrite Hi. cbn [unwrap bind]. rewrite L. destruct (nizkgens_ok (rc_vars (inst ii)) 5 stream) as [g Hg]. rewrite Hg.
    assert (Q : forallb (fun v => swap v <? p) (cpi_list c) = true <-> Forall (fun v => swap v < p) (cpi_list c)).
    { rewrite forallb_forall, Forall_forall. split; intros A x Hx; apply Z.ltb_lt, A, Hx. }
    rewrite (inputs_of_cpi ii c L). destruct (dec_nizk word pp proof) as [pf|e0|] eqn:D; cbn [unwrap bind].
    - destruct (forallb _ _) eqn:F; cbn [bind].
      + pose proof (proj1 Q eq_refl) as F'. destruct (nizk_verify H pf ii _ tr0 g) as [tr|e|] eqn:V.
        * split; (split; [discriminate|]).
          -- intros (_ & pf' & g' & e & A & B & C). injection A as <-. injection B as <-. congruence.
          -- intros [X|[X|(pf' & g' & A & B & C)]]; [contradiction|exfalso; exact (X pf eq_refl)|]. injection A as <-. injection B as <-. congruence.
        * split; split; try discriminate.
          -- intros _. split; [exact F'|]. exists pf, g, e. auto.
          -- reflexivity.
          -- intros [X|[X|(pf' & g' & A & B & C)]]; [contradiction|exfalso; exact (X pf eq_refl)|]. injection A as <-. injection B as <-. congruence.
        * split; split; try discriminate.
          -- intros (_ & pf' & g' & e & A & B & C). injection A as <-. injection B as <-. congruence.
          -- intros _. right. right. exists pf, g. auto.
          -- reflexivity.
      + assert (F' : ~ Forall (fun v => swap v < p) (cpi_list c)) by (intro A; apply Q in A; discriminate).
        split; split; try discriminate; try reflexivity; [intros (A & _); contradiction|left; exact F'].
    - split; split; try discriminate; try reflexivity; [intros (_ & pf & g' & tr & A & _); discriminate|]. intros _. right. left. discriminate.
    - split; split; try discriminate; try reflexivity; [intros (_ & pf & g' & tr & A & _); discriminate|]. intros _. right. left. discriminate.
  Qed.

  (** * Prover and verifier together *)
  Hypothesis W1 : 2 ^ 32 <= word.
  Hypothesis W2 : word <= 2 ^ 64.
  Hypothesis Pt : point_codec word pb pp.
  Variable digest_of : r1cs Fp -> list nat.
  Hypothesis Dg : forall x, Forall (fun b => (b < 256)%nat) (digest_of x) /\ Z.of_nat (length (digest_of x)) < word.

  Lemma load_new file ni ii : load_as_spartan_inst digest_of file ni = Ok ii ->
    exists r m, load_r1cs file = Ok (r, m) /\ instance_new le_parse digest_of (length (c_constraints r)) (c_num_variables r) ni
      (rows_of to_repr (fun c => fst (fst c)) (c_constraints r)) (rows_of to_repr (fun c => snd (fst c)) (c_constraints r)) (rows_of to_repr (fun c => snd c) (c_constraints r)) = Ok ii.
  Proof.
    unfold load_as_spartan_inst, convert. destruct (load_r1cs file) as [[r m]| |]; cbn [bind]; try discriminate. intro X.
    destruct (instance_new _ _ _ _ _ _ _ _) eqn:Y; try discriminate. injection X as ->. do 2 eexists. split; [reflexivity|exact Y].
  Qed.
  Lemma load_r1cs_good prime c secs tail : circuit_ok c -> sections_ok prime c secs -> all_coeffs (fun x => swap x < p) c ->
    exists m, load_r1cs (r1cs_bytes secs ++ tail) = Ok (MkCircom (Z.to_nat (ci_wires c)) (cons_map (fun x => fp (swap x)) (ci_cons c)), m).
  Proof. intros A B C. unfold load_r1cs. rewrite (from_reader_good prime c secs tail A B C). cbn [f_header f_constraints h_wires]. eauto. Qed.

  Lemma size_27 nv : (nv < 2 ^ 27)%nat -> (size_of nv <= 27)%nat.
  Proof.
    intro L. unfold size_of, next_pow2. rewrite Nat.log2_up_pow2 by lia.
    apply Nat.log2_up_le_pow2; [lia|]. assert (6 <= 2 ^ 27)%nat by (apply (Nat.le_trans _ (2 ^ 3)); [cbn; lia|apply Nat.pow_le_mono_r; lia]). lia.
  Qed.
  Lemma size_small nv : (nv < 2 ^ 27)%nat -> (size_of nv - size_of nv / 2 < 32)%nat.
  Proof. intro L. pose proof (size_27 nv L). lia. Qed.

  (** the written instance can be read back *)
  Lemma rows_length {F B} (tr : F -> B) (sel : list (nat * F) * list (nat * F) * list (nat * F) -> list (nat * F)) cs :
    length (rows_of tr sel cs) = list_sum (map (fun c => length (sel c)) cs).
  Proof.
    unfold rows_of. generalize 0%nat. induction cs as [|c cs IH]; intro k; [reflexivity|]. cbn [length seq combine map concat list_sum fold_right].
    rewrite app_length, map_length, IH. reflexivity.
  Qed.
  Lemma lin_bytes_length l : zlen (lin_bytes l) = 4 + 36 * zlen l.
  Proof.
    unfold lin_bytes. rewrite zlen_app, zlen_le. change (Z.of_nat 4) with 4. f_equal. induction l as [|[j x] l IH]; [reflexivity|]. cbn [flat_map]. rewrite !zlen_app, !zlen_le, IH. unfold zlen. cbn [length]. lia.
  Qed.
  Lemma cons_body_length cs (sel : zlin * zlin * zlin -> zlin) : (forall a b d, In (a, b, d) cs -> zlen (sel (a, b, d)) <= zlen a + zlen b + zlen d) ->
    12 * zlen cs + 36 * Z.of_nat (list_sum (map (fun c => length (sel c)) cs)) <= zlen (flat_map (fun '(a, b, c) => lin_bytes a ++ lin_bytes b ++ lin_bytes c) cs).
  Proof.
    induction cs as [|[[a b] d] cs IH]; intro Hs; [reflexivity|]. cbn [flat_map map list_sum fold_right]. rewrite !zlen_app, !lin_bytes_length.
    specialize (IH (fun a' b' d' h => Hs a' b' d' (or_intror h))). specialize (Hs a b d (or_introl eq_refl)). unfold zlen in *. cbn [length]. unfold list_sum in IH. lia.
  Qed.
  Lemma section_in t b secs : In (t, b) secs -> zlen b <= zlen (r1cs_bytes secs).
  Proof.
    intro Hin. unfold r1cs_bytes. rewrite !zlen_app. assert (X : zlen b <= zlen (flat_map section_bytes secs)).
    { induction secs as [|s secs IH]; [destruct Hin|]. cbn [flat_map]. rewrite zlen_app. pose proof (zlen_nonneg (flat_map section_bytes secs)). pose proof (section_len s). pose proof (zlen_nonneg (snd s)).
      destruct Hin as [->|Hin]; [cbn [snd] in *; lia|]. specialize (IH Hin). lia. }
    pose proof (zlen_nonneg [0x72; 0x31; 0x63; 0x73]). pose proof (zlen_nonneg (le_string 4 1)). pose proof (zlen_nonneg (le_string 4 (zlen secs))). lia.
  Qed.
  Lemma next_pow2_bound k : (1 <= k)%nat -> (next_pow2 k < 2 * k)%nat.
  Proof.
    intro L. unfold next_pow2. destruct (Nat.eq_dec k 1) as [->|N]; [cbn; lia|]. pose proof (Nat.log2_up_spec k ltac:(lia)) as [A _].
    pose proof (Nat.log2_up_pos k ltac:(lia)). replace (Nat.log2_up k) with (S (Nat.pred (Nat.log2_up k))) by lia. rewrite Nat.pow_succ_r'. lia.
  Qed.
  Lemma to_scalars_length nc nv ni T : forall es, to_scalars (K:=Fp) le_parse nc nv ni T = Ok es -> length es = length T.
  Proof.
    induction T as [|[[r c] b] T IH]; intros es X; cbn [to_scalars] in X; [injection X as <-; reflexivity|].
    destruct (Nat.leb nc r); [discriminate|]. destruct (Nat.leb _ c); [discriminate|]. destruct (le_parse b); [|discriminate].
    destruct (to_scalars _ _ _ _ T) eqn:Y; try discriminate. cbn [bind] in X. injection X as <-. cbn [length]. f_equal. apply IH. reflexivity.
  Qed.
  Lemma new_fits nc nv ni A B C ii : instance_new le_parse digest_of nc nv ni A B C = Ok ii -> (1 <= nc)%nat ->
    Z.of_nat (2 * nc + 2) < word -> Z.of_nat (2 * (2 * (nv + ni + 1))) < word -> Z.of_nat (length A + 2) < word -> Z.of_nat (length B + 2) < word -> Z.of_nat (length C + 2) < word ->
    Forall (fun b => (b < 256)%nat) (digest_of (inst ii)) -> Z.of_nat (length (digest_of (inst ii))) < word -> instance_fits word ii.
  Proof.
    intros X Hn Bc Bv BA BB BC Dg0 Dl. pose proof X as New. destruct (new_sized _ _ _ _ _ _ _ _ _ _ _ _ X) as (Sz & Ei & Ev & (WA & WB & WC) & Ec).
    assert (Pc : (pad_cons nc <= 2 * nc + 1)%nat).
    { rewrite pad_cons_eq. destruct (Nat.eqb_spec nc 1); [lia|]. pose proof (next_pow2_bound nc Hn). lia. }
    assert (Pv : (pad_vars nv ni < 2 * (nv + ni + 1))%nat).
    { rewrite pad_vars_eq. pose proof (next_pow2_bound (Nat.max nv (ni + 1)) ltac:(lia)). lia. }
    assert (Dm : forall T es, bytes_to_scalar (K:=Fp) le_parse nc nv ni T = Ok es -> (length es <= length T + 2)%nat).
    { intros T es Y. unfold bytes_to_scalar in Y. destruct (to_scalars _ _ _ _ T) as [e0| |] eqn:Q; try discriminate. cbn [bind] in Y. injection Y as <-. apply to_scalars_length in Q.
      rewrite app_length, Q. assert (length (pad_rows (K:=Fp) nc nv (length T)) <= 2)%nat; [|lia]. unfold pad_rows. destruct (Nat.eqb_spec nc 0) as [->|]; [lia|].
      destruct (Nat.eqb_spec nc 1) as [->|]; cbn [orb length]; [|lia]. rewrite map_length, seq_length. change (pad_cons 1) with 2%nat. lia. }
    unfold instance_new in X. destruct (bytes_to_scalar _ _ _ _ A) as [ea| |] eqn:QA; try discriminate. cbn [bind] in X.
    destruct (bytes_to_scalar _ _ _ _ B) as [eb| |] eqn:QB; try discriminate. cbn [bind] in X. destruct (bytes_to_scalar _ _ _ _ C) as [ec| |] eqn:QC; try discriminate. cbn [bind] in X.
    destruct (r1cs_new _ _ _ _ _ _) as [ri| |] eqn:QR; try discriminate. cbn [bind] in X. injection X as <-. cbn [inst] in *. 
    unfold r1cs_new in QR. run QR. injection QR as <-. cbn [rc_cons rc_vars rc_inputs rc_A rc_B rc_C] in *.
    assert (Lg : forall k q, log_2 k = Ok q -> (q <= k)%nat).
    { intros k q Y. unfold log_2 in Y. destruct k; [discriminate|]. injection Y as <-. destruct (Nat.eq_dec k 0) as [->|]; [cbn; lia|]. pose proof (Nat.log2_up_lt_lin (S k) ltac:(lia)). lia. }
    repeat match goal with Y : log_2 _ = Ok _ |- _ => apply Lg in Y end.
    apply Dm in QA. apply Dm in QB. apply Dm in QC.
    assert (En : forall es : list (entry Fp), ents_ok (pad_cons nc) (pad_vars nv ni + ni + 1) es -> Forall (fun e => small word (erow e) /\ small word (ecol e)) es).
    { intros es He. apply Forall_forall. intros e Hin. destruct (He e Hin). unfold small. lia. }
    unfold instance_fits, sparse_fits, short, small. cbn [inst idigest rc_cons rc_vars rc_inputs rc_A rc_B rc_C snx sny sM].
    repeat match goal with |- _ /\ _ => split end; try lia; try assumption; apply En; assumption.
  Qed.

  Lemma pad_33 k : Z.of_nat k < 2 ^ 32 -> (Nat.log2_up (pad_cons k) < 34)%nat.
  Proof.
    intro L. destruct (pad_cons_spec k) as (_ & E2 & _ & _). assert (Q : Z.of_nat (pad_cons k) < 2 ^ 33).
    { rewrite pad_cons_eq. destruct (Nat.eqb_spec k 1); [lia|]. destruct k as [|k]; [cbn; lia|]. pose proof (next_pow2_bound (S k) ltac:(lia)). lia. }
    rewrite (log2_up_pow _ E2), Nat2Z.inj_pow in Q. change (Z.of_nat 2) with 2 in Q. apply Z.pow_lt_mono_r_iff in Q; lia.
  Qed.
  Lemma circuit_read prime c secs tail ii : circuit_ok c -> sections_ok prime c secs -> all_coeffs (fun x => swap x < p) c -> ci_cons c <> [] ->
    ci_wires c < 2 ^ 27 -> zlen (r1cs_bytes secs) < 2 ^ 32 -> load_as_spartan_inst digest_of (r1cs_bytes secs ++ tail) 5 = Ok ii ->
    dec_instance word (ser_instance ii) = Ok ii.
  Proof.
    intros Hc Hs Hk Hn Lw Lf HI. destruct (load_new _ _ _ HI) as (r0 & m0 & Er & New).
    destruct (load_r1cs_good prime c secs tail Hc Hs Hk) as (m1 & Er1). rewrite Er in Er1. injection Er1 as -> ->. cbn [c_constraints c_num_variables] in New.
    destruct Hs as (_ & _ & _ & In2 & _). pose proof (section_in _ _ _ In2) as Lb. unfold cons_body in Lb.
    assert (Ln : length (cons_map (fun x => fp (swap x)) (ci_cons c)) = length (ci_cons c)) by apply map_length.
    assert (Rows : forall sel sel', (forall a b d, In (a, b, d) (ci_cons c) -> zlen (sel (a, b, d)) <= zlen a + zlen b + zlen d) ->
      (forall a b d, sel' (lin_map (fun x => fp (swap x)) a, lin_map (fun x => fp (swap x)) b, lin_map (fun x => fp (swap x)) d) = lin_map (fun x => fp (swap x)) (sel (a, b, d))) ->
      12 * zlen (ci_cons c) + 36 * Z.of_nat (length (rows_of to_repr sel' (cons_map (fun x => fp (swap x)) (ci_cons c)))) < 2 ^ 32).
    { intros sel sel' S1 S2. rewrite rows_length. unfold cons_map. rewrite map_map. rewrite (map_ext _ (fun x => length (sel x))).
      - pose proof (cons_body_length (ci_cons c) sel S1). lia.
      - intros [[a b] d]. rewrite S2. unfold lin_map. apply map_length. }
    pose proof (Rows (fun c => fst (fst c)) (fun c => fst (fst c))) as RA. pose proof (Rows (fun c => snd (fst c)) (fun c => snd (fst c))) as RB. pose proof (Rows snd snd) as RC. clear Rows.
    cbn [fst snd] in RA, RB, RC.
    specialize (RA ltac:(intros a b d _; pose proof (zlen_nonneg b); pose proof (zlen_nonneg d); lia) ltac:(reflexivity)).
    specialize (RB ltac:(intros a b d _; pose proof (zlen_nonneg a); pose proof (zlen_nonneg d); lia) ltac:(reflexivity)).
    specialize (RC ltac:(intros a b d _; pose proof (zlen_nonneg a); pose proof (zlen_nonneg b); lia) ltac:(reflexivity)).
    destruct Hc as (U & _). unfold u32 in U. unfold zlen in RA, RB, RC.
    destruct (Dg (inst ii)) as [D1 D2].
    assert (Hl : (1 <= length (ci_cons c))%nat) by (destruct (ci_cons c); [congruence|cbn; lia]).
    assert (F : instance_fits word ii).
    { assert (A1 : forall a b : nat, a = b -> (1 <= b)%nat -> (1 <= a)%nat) by lia.
      assert (A2 : forall a b d : nat, a = b -> 12 * Z.of_nat b + 36 * Z.of_nat d < 2 ^ 32 -> Z.of_nat (2 * a + 2) < word) by lia.
      assert (A3 : forall b d : nat, (1 <= b)%nat -> 12 * Z.of_nat b + 36 * Z.of_nat d < 2 ^ 32 -> Z.of_nat (d + 2) < word) by lia.
      refine (new_fits _ _ _ _ _ _ ii New (A1 _ _ Ln Hl) (A2 _ _ _ Ln RA) _ (A3 _ _ Hl RA) (A3 _ _ Hl RB) (A3 _ _ Hl RC) D1 D2). lia. }
    unfold dec_instance. rewrite <- (app_nil_r (ser_instance ii)). rewrite (rt_instance word ltac:(lia) W2 ii [] F). reflexivity.
  Qed.

  Lemma membership_run {M} (gen : Z -> M -> Z * Z * Z * Z -> res (list Z)) circuit prime c secs tail v wp w wtail r s v' m root mp e :
    circuit_ok c -> sections_ok prime c secs -> all_coeffs (fun x => swap x < p) c -> wires_ok (Z.to_nat (ci_wires c)) (ci_cons c) -> ci_cons c <> [] ->
    zlen (r1cs_bytes secs) < 2 ^ 32 -> gen_circuit digest_of (r1cs_bytes secs ++ tail) 5 = Ok circuit ->
    wtns_ok v wp w -> zlen w < 2 ^ 27 -> Forall (fun x => swap x < p) w -> zlen w = ci_wires c -> circom_sat (cons_map fp (ci_cons c)) (map fp w) ->
    gen s mp e = Ok (wtns_bytes v wp (32 * zlen w) w ++ wtail) ->
    let '(Tx, Ty, Ux, Uy) := e in
    let x := MkPI r v' m (MkCPI root Tx Ty Ux Uy) in
    computeEff r v' m = Ok e -> pi_fits x -> Forall (fun v => swap v < p) (cpi_list (pi_circuit x)) -> is_bytes m ->
    (forall proof x', prove circuit gen r s v' m root mp = Ok (proof, x') -> x' = x /\ verify circuit proof (pi_wire x) = Ok true) /\
    unless H "u" 0%fld (size_of (length w) - size_of (length w) / 2) (exists proof, prove circuit gen r s v' m root mp = Ok (proof, x)).
  Proof.
    intros Hc Hs Hk Hw Hn Lf HG Ww Lw Sw Nw Sat Hg. destruct e as [[[Tx Ty] Ux] Uy]. intros x He Fx Sx Bm.
    unfold gen_circuit in HG. destruct (load_as_spartan_inst digest_of (r1cs_bytes secs ++ tail) 5) as [ii| |] eqn:HI; try discriminate. cbn [bind] in HG. injection HG as <-.
    assert (Hd : dec_instance word (ser_instance ii) = Ok ii) by (apply (circuit_read prime c secs tail); try assumption; lia).
    destruct (load_ok digest_of prime c secs tail 5 Hc Hs Hk Hw) as (ii' & HI' & Acc). rewrite HI in HI'. injection HI' as <-.
    destruct (load_new _ _ _ HI) as (r0 & m0 & Er & New).
    destruct (load_r1cs_good prime c secs tail Hc Hs Hk) as (m1 & Er1). rewrite Er in Er1. injection Er1 as -> ->. cbn [c_constraints c_num_variables] in New.
    assert (Lm : length (map fp w) = Z.to_nat (ci_wires c)) by (rewrite map_length, <- Nw, nat_len; reflexivity).
    destruct (Acc (map fp w) (map (fun v => fp (swap v)) (cpi_list (pi_circuit x))) Lm eq_refl) as (b & Eb & Hb).
    apply (proj2 Hb) in Sat. subst b.
    destruct (new_sized _ _ _ _ _ _ _ _ _ _ _ _ New) as (Szd & Ei & Ev & _ & _).
    destruct (nizkgens_ok (Z.to_nat (ci_wires c)) 5 stream) as [g Gg].
    assert (Gp : nizkgens_new (rc_vars (inst ii)) (rc_inputs (inst ii)) stream = Ok g) by (rewrite Ei, Ev, nizkgens_pad; exact Gg).
    assert (Hnc : (1 <= length (cons_map (fun x => fp (swap x)) (ci_cons c)))%nat).
    { unfold cons_map. rewrite map_length. destruct (ci_cons c); [congruence|cbn; lia]. }
    destruct two_three_fp as [two three].
    assert (Lw' : (length w < 2 ^ 27)%nat).
    { unfold zlen in Lw. rewrite <- (Nat2Z.id (length w)). change (2 ^ 27)%nat with (Z.to_nat 2 ^ Z.to_nat 27)%nat. rewrite <- Z2Nat.inj_pow by lia. apply Z2Nat.inj_lt; lia. }
    pose proof (size_small _ Lw') as Sz.
    assert (Ew : Z.to_nat (ci_wires c) = length w) by (rewrite <- Nw, nat_len; reflexivity).
    pose proof (api_nizk_complete H two three (list Z) le_parse digest_of _ _ 5 _ _ _ ii stream g (map fp w) _ seed tr0 Hnc New Eb Gg) as X. cbv zeta in X.
    rewrite Ew in X. change (5 + 1)%nat with 6%nat in X. fold (size_of (length w)) in X. destruct (X Sz) as [X1 X2]. clear X.
    assert (Pr : forall q, prove (ser_instance ii) gen r s v' m root mp = Ok q <->
      exists pf tr, nizk_prove H ii (map fp w) (map (fun v => fp (swap v)) (cpi_list (pi_circuit x))) g seed tr0 = Ok (pf, tr) /\ q = (ser_nizk pb pf, x)).
    { intro q. unfold membership_prove. rewrite He. cbn [bind]. rewrite Hg. cbn [bind]. fold x. pose proof Fx as (_ & _ & Fc). rewrite (cpi_serialize_ok _ Fc). cbn [bind].
      unfold wasm_prove. destruct (witness_ok v wp w wtail Ww Lw Sw) as [_ Wa]. rewrite Wa. cbn [bind]. rewrite Hd. cbn [unwrap bind]. rewrite Gp. cbn [bind].
      rewrite (inputs_of_cpi ii _ Ei). replace (forallb _ _) with true.
      2:{ symmetry. apply forallb_forall. intros y Hy. apply Z.ltb_lt. exact (proj1 (Forall_forall _ _) Sx y Hy). }
      cbn [bind]. destruct (nizk_prove H ii _ _ g seed tr0) as [[pf tr]| |]; cbn [bind].
      - split; [intro Q; injection Q as <-; eauto|]. intros (pf' & tr' & Q & ->). congruence.
      - split; [discriminate|]. intros (pf' & tr' & Q & _). discriminate.
      - split; [discriminate|]. intros (pf' & tr' & Q & _). discriminate. }
    split.
    - intros proof x' Q. apply Pr in Q. destruct Q as (pf & tr & Q & Z). injection Z as -> ->. split; [reflexivity|].
      assert (Bx : is_bytes (pi_wire x)) by (apply (pi_serialize_bytes x); [exact Bm|apply pi_serialize_ok; exact Fx]).
      apply (verify_true _ _ _ Bx). exists x. split; [apply pi_roundtrip; exact Fx|].
      split. { apply (proj1 (computeEff_ok _ _ _ _ _ _ _)) in He. destruct He as [_ He]. exact He. }
      apply (wasm_true _ _ _ ii Hd Ei). split; [exact Sx|]. exists pf, g, tr. rewrite Ei in Gp. split; [|split; [exact Gp|apply X1; exact Q]].
      assert (Ft : nizk_fits word pf).
      { set (b := Nat.log2_up (pad_vars (Z.to_nat (ci_wires c)) 5)) in *. set (a := Nat.log2_up (pad_cons _)) in Szd.
        assert (Hb32 : (b <= 27)%nat). { unfold b. rewrite pad_vars_eq, Ew. fold (size_of (length w)). apply size_27. exact Lw'. }
        assert (Ha32 : (a < 34)%nat).
        { unfold a. apply pad_33. unfold cons_map. rewrite map_length. destruct Hc as (_ & _ & _ & _ & _ & [_ U] & _). exact U. }
        destruct (nizk_shape H ii (map fp w) _ g seed tr0 pf tr a b stream Q (NizkProofs.sz_cons _ _ _ Szd) (NizkProofs.sz_vars _ _ _ Szd)) as ((S1 & S2 & S3 & S4 & S5) & B1 & B2).
        - rewrite Lm. rewrite <- (NizkProofs.sz_vars _ _ _ Szd), Ev. apply pad_vars_spec.
        - unfold nizkgens_new in Gg. rewrite <- Ev, (NizkProofs.sz_vars _ _ _ Szd) in Gg. exact Gg.
        - assert (Bz : forall N z, (N < 34)%nat -> bounded N z -> zk_fits word (E:=E) z).
          { intros N z LN ((z1 & z2 & z3) & z4). unfold zk_fits, short, small. repeat match goal with |- _ /\ _ => split end; try lia.
            refine (Forall_impl _ _ z4). cbn beta. intros dd Hdd. lia. }
          assert (Sh : forall {A} (l : list A) k, (length l <= k)%nat -> (k <= 34)%nat -> short word l) by (intros; unfold short, small; lia).
          assert (P2 : Z.of_nat (2 ^ (b / 2)) < word).
          { rewrite Nat2Z.inj_pow. change (Z.of_nat 2) with 2. apply (Z.lt_le_trans _ (2 ^ 32)); [|exact W1]. apply Z.pow_lt_mono_r; [lia|lia|]. pose proof (Nat.div_le_upper_bound b 2 27 ltac:(lia) ltac:(lia)). lia. }
          unfold nizk_fits. split; [unfold short, small; rewrite S1; exact P2|]. split; [apply (Bz a); [exact Ha32|exact B1]|]. split; [apply (Bz (S b)); [lia|exact B2]|].
          split; [apply (Sh _ _ _ S2); lia|]. split; [apply (Sh _ _ _ S3); lia|]. split; [apply (Sh _ _ a); [rewrite S4; lia|lia]|apply (Sh _ _ (S b)); [rewrite S5; lia|lia]]. }
      unfold dec_nizk. rewrite <- (app_nil_r (ser_nizk pb pf)). rewrite (rt_nizk word ltac:(lia) W2 pb pp Pt pf [] Ft). reflexivity.
    - refine (unless_mono H _ _ _ _ _ _ X2). intros [[pf tr] Q]. exists (ser_nizk pb pf). apply Pr. eauto.
  Qed.
End W.
