From Coq Require Import ZArith List Bool Lia.
From Verif Require Import Base Primes Field Zq Limb LimbSpec LimbInt R1csModel R1csSpec R1csApi TsSpec TsProofs ReadModel ReadSpec ReadProofs.
Import ListNotations.
Local Open Scope Z_scope.

(** * The circuit that a file stands for *)
Lemma from_reader_good prime c secs tail : circuit_ok c -> sections_ok prime c secs -> all_coeffs (fun x => swap x < p) c ->
  from_reader (r1cs_bytes secs ++ tail) = Ok (MkR1csFile
    (MkHeader 32 prime (ci_wires c) (ci_pub_out c) (ci_pub_in c) (ci_prv_in c) (ci_labels c) (zlen (ci_cons c)))
    (cons_map (fun x => fp (swap x)) (ci_cons c)) (ci_map c)).
Proof.
  intros Hc Hs Hk. rewrite (from_reader_ok prime c secs tail Hc Hs). apply coeffs_okb_spec in Hk. rewrite Hk. reflexivity.
Qed.
Lemma from_reader_bad prime c secs tail : circuit_ok c -> sections_ok prime c secs -> ~ all_coeffs (fun x => swap x < p) c ->
  from_reader (r1cs_bytes secs ++ tail) = Panic.
Proof.
  intros Hc Hs Hk. rewrite (from_reader_ok prime c secs tail Hc Hs). rewrite <- coeffs_okb_spec in Hk.
  destruct (coeffs_okb c); [congruence|reflexivity].
Qed.
Lemma lin_map_in {A B} (f : A -> B) l j y : In (j, y) (lin_map f l) -> exists x, In (j, x) l /\ y = f x.
Proof.
  unfold lin_map. intro H. apply in_map_iff in H. destruct H as ([j' x] & E & Hin). injection E as <- <-. eauto.
Qed.
Lemma cons_map_inv {A B} (f : A -> B) cs a b d : In (a, b, d) (cons_map f cs) ->
  exists a' b' d', In (a', b', d') cs /\ a = lin_map f a' /\ b = lin_map f b' /\ d = lin_map f d'.
Proof.
  unfold cons_map. intro H. apply in_map_iff in H. destruct H as ([[a' b'] d'] & E & Hin). injection E as <- <- <-. exists a', b', d'. auto.
Qed.
Lemma lin_map_map {A B C} (f : A -> B) (g : B -> C) l : lin_map g (lin_map f l) = lin_map (fun x => g (f x)) l.
Proof. unfold lin_map. rewrite map_map. apply map_ext. intros [j x]. reflexivity. Qed.
Lemma lin_map_ext {A B} (f g : A -> B) l : (forall j x, In (j, x) l -> f x = g x) -> lin_map f l = lin_map g l.
Proof. intro H. unfold lin_map. apply map_ext_in. intros [j x] Hin. rewrite (H j x Hin). reflexivity. Qed.

Theorem load_ok {D} (digest_of : r1cs Fp -> D) prime c secs tail ni :
  circuit_ok c -> sections_ok prime c secs -> all_coeffs (fun x => swap x < p) c ->
  wires_ok (Z.to_nat (ci_wires c)) (ci_cons c) ->
  exists I, load_as_spartan_inst digest_of (r1cs_bytes secs ++ tail) ni = Ok I /\
    forall w inputs, length w = Z.to_nat (ci_wires c) -> length inputs = ni ->
      exists b, instance_is_sat I w inputs = Ok b /\ (b = true <-> circom_sat (cons_map fp (ci_cons c)) w).
Proof.
  intros Hc Hs Hk Hw. unfold load_as_spartan_inst, load_r1cs. rewrite (from_reader_good prime c secs tail Hc Hs Hk). cbn [bind f_header f_constraints h_wires].
  set (f := fun y : Fp => fp (swap (zval y))).
  pose proof Hc as (_ & _ & _ & _ & _ & _ & Hf & _).
  assert (V : forall x, 0 <= x < p -> swap x < p -> le_parse (to_repr (fp (swap x))) = Some (f (fp (swap x))) /\ f (fp (swap x)) = fp x).
  { intros x Hx Hsx. assert (X : 0 <= x < 2 ^ 256) by (split; [lia|]; apply (Z.lt_trans _ p); [lia|reflexivity]).
    assert (E : f (fp (swap x)) = fp x) by (unfold f; rewrite zval_swap, swap_swap by assumption; reflexivity).
    split; [|exact E]. rewrite E, to_repr_swap, le_parse_string by assumption. destruct (Z.ltb_spec x p); [reflexivity|lia]. }
  destruct (api_convert Fp (list Z) le_parse D digest_of Fp to_repr f
    (MkCircom (Z.to_nat (ci_wires c)) (cons_map (fun x => fp (swap x)) (ci_cons c))) ni) as (I & E & H).
  - cbn [c_constraints]. intros a b d Hin. apply cons_map_inv in Hin. destruct Hin as (a' & b' & d' & Hin & -> & -> & ->).
    destruct (Hk _ _ _ Hin) as (K1 & K2 & K3). destruct (Hf _ _ _ Hin) as ((_ & F1) & (_ & F2) & (_ & F3)).
    repeat split; intros j y Hj; apply lin_map_in in Hj; destruct Hj as (x & Hx & ->); apply V; [apply (F1 j x Hx)|apply (K1 j x Hx)|apply (F2 j x Hx)|apply (K2 j x Hx)|apply (F3 j x Hx)|apply (K3 j x Hx)].
  - cbn [c_constraints c_num_variables]. intros a b d Hin. apply cons_map_inv in Hin. destruct Hin as (a' & b' & d' & Hin & -> & -> & ->).
    destruct (Hw _ _ _ Hin) as (K1 & K2 & K3).
    repeat split; intros j y Hj; apply lin_map_in in Hj; destruct Hj as (x & Hx & ->); eauto.
  - exists I. split; [exact E|]. cbn [c_constraints c_num_variables] in H. intros w inputs Lw Li.
    destruct (H w inputs Lw Li) as (b & Eb & Hb). exists b. split; [exact Eb|]. rewrite Hb.
    replace (cons_map f (cons_map (fun x => fp (swap x)) (ci_cons c))) with (cons_map fp (ci_cons c)); [reflexivity|].
    unfold cons_map. rewrite map_map. apply map_ext_in. intros [[a b'] d] Hin. rewrite !lin_map_map.
    destruct (Hk _ _ _ Hin) as (K1 & K2 & K3). destruct (Hf _ _ _ Hin) as ((_ & F1) & (_ & F2) & (_ & F3)).
    f_equal; [f_equal|]; apply lin_map_ext; intros j x Hx; symmetry; apply V; eauto.
    + apply (F1 j x Hx).
    + apply (F2 j x Hx).
    + apply (F3 j x Hx).
Qed.
Theorem load_panics {D} (digest_of : r1cs Fp -> D) prime c secs tail ni :
  circuit_ok c -> sections_ok prime c secs -> ~ all_coeffs (fun x => swap x < p) c ->
  load_as_spartan_inst digest_of (r1cs_bytes secs ++ tail) ni = Panic.
Proof.
  intros Hc Hs Hk. unfold load_as_spartan_inst, load_r1cs. rewrite (from_reader_bad prime c secs tail Hc Hs Hk). reflexivity.
Qed.

(** * Inversion: what an accepted file looks like *)
Lemma read_exact_inv k s a t : read_exact k s = Ok (a, t) -> s = a ++ t /\ length a = k.
Proof.
  unfold read_exact. destruct (Nat.leb_spec k (length s)); [|discriminate]. intro E. injection E as <- <-.
  split; [symmetry; apply firstn_skipn|rewrite firstn_length; lia].
Qed.
Lemma bytes_app a b : is_bytes (a ++ b) <-> is_bytes a /\ is_bytes b.
Proof. apply Forall_app. Qed.
Lemma read_u32_inv s v t : is_bytes s -> read_u32 s = Ok (v, t) -> s = le_string 4 v ++ t /\ u32 v /\ is_bytes t.
Proof.
  intros B. unfold read_u32. destruct (read_exact 4 s) as [[a r]|e|] eqn:E; cbn [bind]; [|discriminate..]. intro H. injection H as <- <-.
  apply read_exact_inv in E. destruct E as [-> L]. apply bytes_app in B. destruct B as [Ba Bt].
  split; [|split; [|exact Bt]].
  - rewrite <- L, le_string_of_le by exact Ba. reflexivity.
  - pose proof (of_le_bound a Ba) as R. rewrite L in R. exact R.
Qed.
Lemma read_u64_inv s v t : is_bytes s -> read_u64 s = Ok (v, t) -> s = le_string 8 v ++ t /\ u64 v /\ is_bytes t.
Proof.
  intros B. unfold read_u64. destruct (read_exact 8 s) as [[a r]|e|] eqn:E; cbn [bind]; [|discriminate..]. intro H. injection H as <- <-.
  apply read_exact_inv in E. destruct E as [-> L]. apply bytes_app in B. destruct B as [Ba Bt].
  split; [|split; [|exact Bt]].
  - rewrite <- L, le_string_of_le by exact Ba. reflexivity.
  - pose proof (of_le_bound a Ba) as R. rewrite L in R. exact R.
Qed.
Lemma read_field_inv s x t : is_bytes s -> read_field s = Ok (x, t) ->
  exists v, s = le_string 32 v ++ t /\ 0 <= v < 2 ^ 256 /\ swap v < p /\ x = fp (swap v) /\ is_bytes t.
Proof.
  intros B H. destruct (read_exact 32 s) as [[a r]|e|] eqn:E; unfold read_field in H; rewrite E in H; cbn [bind] in H; [|discriminate..].
  pose proof (read_exact_inv _ _ _ _ E) as [-> L]. apply bytes_app in B. destruct B as [Ba Bt].
  assert (Ea : a = le_string 32 (of_le a)) by (rewrite <- L, le_string_of_le by exact Ba; reflexivity).
  exists (of_le a). rewrite Ea, from_repr_le in H at 1. destruct (Z.ltb_spec (swap (of_le a)) p) as [Hp|]; [|discriminate].
  cbn [of_opt bind] in H. injection H as <- <-. rewrite <- Ea. pose proof (of_le_bound a Ba) as R. rewrite L in R. auto.
Qed.
Lemma read_fields_inv k : forall s l t, is_bytes s -> read_many read_field k s = Ok (l, t) ->
  exists w, length w = k /\ s = flat_map (le_string 32) w ++ t /\ Forall (fun v => 0 <= v < 2 ^ 256 /\ swap v < p) w /\
    l = map (fun v => fp (swap v)) w.
Proof.
  induction k as [|k IH]; intros s l t B H; cbn [read_many] in H.
  - injection H as <- <-. exists []. repeat split. constructor.
  - destruct (read_field s) as [[x r]|e|] eqn:E; cbn [bind] in H; [|discriminate..].
    destruct (read_many read_field k r) as [[l' r']|e|] eqn:E'; cbn [bind] in H; [|discriminate..]. injection H as <- <-.
    apply (read_field_inv _ _ _ B) in E. destruct E as (v & -> & Hv & Hs & -> & Br). destruct (IH _ _ _ Br E') as (w & Lw & -> & Fw & ->).
    exists (v :: w). cbn [length flat_map map]. rewrite app_assoc. repeat split; [congruence|]. constructor; auto.
Qed.

(** * .wtns files *)
Theorem load_witness_iff b l : is_bytes b ->
  (load_witness b = Ok l <->
   exists version prime w tail, b = wtns_bytes version prime ((32 * zlen w) mod 2 ^ 32) w ++ tail /\
     0 <= version <= 2 /\ length prime = 32%nat /\ u32 (zlen w) /\
     Forall (fun v => 0 <= v < 2 ^ 256 /\ swap v < p) w /\ l = map (fun v => fp (swap v)) w).
Proof.
  intro B. split.
  - intro H. unfold load_witness in H.
    destruct (read_exact 4 b) as [[m s0]|e|] eqn:E0; cbn [bind] in H; [|discriminate..]. apply read_exact_inv in E0. destruct E0 as [-> _].
    apply bytes_app in B. destruct B as [_ B].
    destruct (list_eq_dec _ _ _) as [->|_]; [|discriminate].
    destruct (read_u32 s0) as [[v s1]|e|] eqn:E1; cbn [bind] in H; [|discriminate..]. apply (read_u32_inv _ _ _ B) in E1. destruct E1 as (-> & U1 & B1).
    destruct (Z.leb_spec v 2) as [V|]; [|discriminate].
    destruct (read_u32 s1) as [[k s2]|e|] eqn:E2; cbn [bind] in H; [|discriminate..]. apply (read_u32_inv _ _ _ B1) in E2. destruct E2 as (-> & _ & B2).
    destruct (Z.eqb_spec k 2) as [->|]; [|discriminate].
    destruct (read_u32 s2) as [[k s3]|e|] eqn:E3; cbn [bind] in H; [|discriminate..]. apply (read_u32_inv _ _ _ B2) in E3. destruct E3 as (-> & _ & B3).
    destruct (Z.eqb_spec k 1) as [->|]; [|discriminate].
    destruct (read_u64 s3) as [[k s4]|e|] eqn:E4; cbn [bind] in H; [|discriminate..]. apply (read_u64_inv _ _ _ B3) in E4. destruct E4 as (-> & _ & B4).
    destruct (Z.eqb_spec k 40) as [->|]; [|discriminate].
    destruct (read_u32 s4) as [[k s5]|e|] eqn:E5; cbn [bind] in H; [|discriminate..]. apply (read_u32_inv _ _ _ B4) in E5. destruct E5 as (-> & _ & B5).
    destruct (Z.eqb_spec k 32) as [->|]; [|discriminate].
    destruct (read_exact (Z.to_nat 32) s5) as [[prime s6]|e|] eqn:E6; cbn [bind] in H; [|discriminate..]. apply read_exact_inv in E6. destruct E6 as [-> Lp].
    apply bytes_app in B5. destruct B5 as [_ B6].
    destruct (read_u32 s6) as [[k s7]|e|] eqn:E7; cbn [bind] in H; [|discriminate..]. apply (read_u32_inv _ _ _ B6) in E7. destruct E7 as (-> & U7 & B7).
    destruct (read_u32 s7) as [[k' s8]|e|] eqn:E8; cbn [bind] in H; [|discriminate..]. apply (read_u32_inv _ _ _ B7) in E8. destruct E8 as (-> & _ & B8).
    destruct (Z.eqb_spec k' 2) as [->|]; [|discriminate].
    destruct (read_u64 s8) as [[k' s9]|e|] eqn:E9; cbn [bind] in H; [|discriminate..]. apply (read_u64_inv _ _ _ B8) in E9. destruct E9 as (-> & _ & B9).
    destruct (Z.eqb_spec k' ((k * 32) mod 2 ^ 32)) as [->|]; [|discriminate].
    destruct (read_many read_field (Z.to_nat k) s9) as [[fs r]|e|] eqn:EF; cbn [bind] in H; [|discriminate..]. injection H as <-.
    apply (read_fields_inv _ _ _ _ B9) in EF. destruct EF as (w & Lw & -> & Fw & ->).
    assert (Ek : k = zlen w) by (unfold zlen, u32 in *; lia). subst k.
    exists v, prime, w, r. unfold wtns_bytes. rewrite (Z.mul_comm 32), <- !app_assoc. unfold u32 in U1. split; [reflexivity|]. split; [lia|]. auto.
  - intros (v & prime & w & tail & -> & V & Lp & Lw & Fw & ->). unfold load_witness, wtns_bytes. rewrite <- !app_assoc.
    rewrite read_exact_app by reflexivity. cbn [bind]. destruct (list_eq_dec _ _ _) as [_|N]; [|congruence].
    rewrite read_u32_app by (unfold u32; lia). cbn [bind]. destruct (Z.leb_spec v 2); [|lia].
    rewrite read_u32_app by (unfold u32; lia). cbn [bind]. change (2 =? 2) with true. cbv iota.
    rewrite read_u32_app by (unfold u32; lia). cbn [bind]. change (1 =? 1) with true. cbv iota.
    rewrite read_u64_app by (unfold u64; lia). cbn [bind]. change (40 =? 40) with true. cbv iota.
    rewrite read_u32_app by (unfold u32; lia). cbn [bind]. change (32 =? 32) with true. cbv iota.
    rewrite read_exact_app by exact Lp. cbn [bind].
    rewrite read_u32_app by exact Lw. cbn [bind]. rewrite read_u32_app by (unfold u32; lia). cbn [bind]. change (2 =? 2) with true. cbv iota.
    rewrite read_u64_app by (pose proof (Z.mod_pos_bound (32 * zlen w) (2 ^ 32) ltac:(lia)); unfold u64; lia). cbn [bind].
    rewrite (Z.mul_comm 32), Z.eqb_refl, nat_len.
    pose proof (read_many_app read_field (le_string 32) (fun v => swap v <? p) (fun v => fp (swap v)) w tail (fun b s _ => read_field_app b s)) as R.
    rewrite R. assert (X : forallb (fun v0 => swap v0 <? p) w = true); [|rewrite X; reflexivity].
    apply forallb_forall. intros x Hx. apply Z.ltb_lt. apply (proj1 (Forall_forall _ w) Fw x Hx).
Qed.
Lemma p_256 x : 0 <= x < p -> 0 <= x < 2 ^ 256.
Proof. intro H. split; [lia|]. apply (Z.lt_trans _ p); [lia|reflexivity]. Qed.
Lemma wtns_read v prime w tail : wtns_ok v prime w ->
  load_witness (wtns_bytes v prime (32 * zlen w) w ++ tail) =
  if (zlen w <? 2 ^ 27) && forallb (fun x => swap x <? p) w then Ok (map (fun x => fp (swap x)) w) else Panic.
Proof.
  intros (V & Lp & Bp & Lw & Fw). unfold load_witness, wtns_bytes. rewrite <- !app_assoc. unfold u32 in Lw.
  rewrite read_exact_app by reflexivity. cbn [bind]. destruct (list_eq_dec _ _ _) as [_|N]; [|congruence].
  rewrite read_u32_app by (unfold u32; lia). cbn [bind]. destruct (Z.leb_spec v 2); [|lia].
  rewrite read_u32_app by (unfold u32; lia). cbn [bind]. change (2 =? 2) with true. cbv iota.
  rewrite read_u32_app by (unfold u32; lia). cbn [bind]. change (1 =? 1) with true. cbv iota.
  rewrite read_u64_app by (unfold u64; lia). cbn [bind]. change (40 =? 40) with true. cbv iota.
  rewrite read_u32_app by (unfold u32; lia). cbn [bind]. change (32 =? 32) with true. cbv iota.
  rewrite read_exact_app by exact Lp. cbn [bind].
  rewrite read_u32_app by exact Lw. cbn [bind]. rewrite read_u32_app by (unfold u32; lia). cbn [bind]. change (2 =? 2) with true. cbv iota.
  rewrite read_u64_app by (unfold u64; lia). cbn [bind]. rewrite nat_len.
  destruct (Z.ltb_spec (zlen w) (2 ^ 27)) as [L|L]; cbn [andb].
  - rewrite Z.mod_small by lia. rewrite (Z.mul_comm 32), Z.eqb_refl.
    rewrite (read_many_app read_field (le_string 32) (fun v => swap v <? p) (fun v => fp (swap v)) w tail (fun b s _ => read_field_app b s)).
    destruct (forallb _ w); reflexivity.
  - destruct (Z.eqb_spec (32 * zlen w) ((zlen w * 32) mod 2 ^ 32)) as [E|_]; [|reflexivity].
    exfalso. pose proof (Z.mod_pos_bound (zlen w * 32) (2 ^ 32) ltac:(lia)). lia.
Qed.
Theorem witness_ok v prime w tail : wtns_ok v prime w -> zlen w < 2 ^ 27 -> Forall (fun x => swap x < p) w ->
  load_witness (wtns_bytes v prime (32 * zlen w) w ++ tail) = Ok (map (fun x => fp (swap x)) w) /\
  witness_assignment (wtns_bytes v prime (32 * zlen w) w ++ tail) = Ok (map fp w).
Proof.
  intros H L F. pose proof (wtns_read v prime w tail H) as E.
  replace (zlen w <? 2 ^ 27) with true in E by (symmetry; apply Z.ltb_lt, L).
  replace (forallb (fun x => swap x <? p) w) with true in E.
  2:{ symmetry. apply forallb_forall. intros x Hx. apply Z.ltb_lt. apply (proj1 (Forall_forall _ w) F x Hx). }
  cbn [andb] in E. split; [exact E|]. unfold witness_assignment. rewrite E. destruct H as (_ & _ & _ & _ & Fw). clear E L.
  assert (A : assignment_new le_parse (map to_repr (map (fun x => fp (swap x)) w)) = Ok (map fp w)); [|rewrite A; reflexivity].
  induction w as [|x w IH]; [reflexivity|]. inversion F as [|? ? F1 F2]; subst. inversion Fw as [|? ? W1 W2]; subst. cbn [map assignment_new].
  rewrite to_repr_swap by exact F1. rewrite le_parse_string by (apply p_256, W1). destruct (Z.ltb_spec x p); [|lia]. rewrite (IH W2 F2). reflexivity.
Qed.
Theorem witness_panics v prime w tail : wtns_ok v prime w -> 2 ^ 27 <= zlen w \/ Exists (fun x => p <= swap x) w ->
  load_witness (wtns_bytes v prime (32 * zlen w) w ++ tail) = Panic /\
  witness_assignment (wtns_bytes v prime (32 * zlen w) w ++ tail) = Panic.
Proof.
  intros H B. pose proof (wtns_read v prime w tail H) as E.
  assert (X : (zlen w <? 2 ^ 27) && forallb (fun x => swap x <? p) w = false).
  { apply andb_false_iff. destruct B as [B|B]; [left; apply Z.ltb_ge, B|right]. apply Exists_exists in B. destruct B as (x & Hin & Hx).
    destruct (forallb _ w) eqn:F; [|reflexivity]. rewrite forallb_forall in F. specialize (F x Hin). apply Z.ltb_lt in F. lia. }
  rewrite X in E. split; [exact E|]. unfold witness_assignment. rewrite E. reflexivity.
Qed.


(** * Rejections *)
Lemma read_many_length {A} (f : list Z -> res (A * list Z)) k : forall s l t, read_many f k s = Ok (l, t) -> length l = k.
Proof.
  induction k as [|k IH]; intros s l t H; cbn [read_many] in H; [injection H as <- <-; reflexivity|].
  destruct (f s) as [[a r]|e|]; cbn [bind] in H; [|discriminate..].
  destruct (read_many f k r) as [[l' r']|e|] eqn:E; cbn [bind] in H; [|discriminate..]. injection H as <- <-. cbn [length]. rewrite (IH _ _ _ E). reflexivity.
Qed.
Lemma seek_bytes file pos : is_bytes file -> is_bytes (seek file pos).
Proof.
  intro H. unfold seek. destruct (_ <? _); [|constructor]. rewrite <- (firstn_skipn (Z.to_nat pos) file) in H. apply bytes_app in H. apply H.
Qed.
Lemma read_header_inv s size h t : is_bytes s -> read_header s size = Ok (h, t) -> 0 <= h_wires h /\ 0 <= h_constraints h /\ size = 32 + h_field_size h.
Proof.
  intros B H. unfold read_header in H.
  destruct (read_u32 s) as [[fs s1]|e|] eqn:E1; cbn [bind] in H; [|discriminate..]. apply (read_u32_inv _ _ _ B) in E1. destruct E1 as (-> & _ & B1).
  destruct (read_exact (Z.to_nat fs) s1) as [[pr s2]|e|] eqn:E2; cbn [bind] in H; [|discriminate..]. apply read_exact_inv in E2. destruct E2 as [-> _].
  apply bytes_app in B1. destruct B1 as [_ B2]. destruct (Z.eqb_spec size (32 + fs)) as [Hs|]; [|discriminate]. cbn [negb] in H.
  destruct (read_u32 s2) as [[w s3]|e|] eqn:E3; cbn [bind] in H; [|discriminate..]. apply (read_u32_inv _ _ _ B2) in E3. destruct E3 as (-> & U3 & B3).
  destruct (read_u32 s3) as [[o s4]|e|] eqn:E4; cbn [bind] in H; [|discriminate..]. apply (read_u32_inv _ _ _ B3) in E4. destruct E4 as (-> & _ & B4).
  destruct (read_u32 s4) as [[i s5]|e|] eqn:E5; cbn [bind] in H; [|discriminate..]. apply (read_u32_inv _ _ _ B4) in E5. destruct E5 as (-> & _ & B5).
  destruct (read_u32 s5) as [[r s6]|e|] eqn:E6; cbn [bind] in H; [|discriminate..]. apply (read_u32_inv _ _ _ B5) in E6. destruct E6 as (-> & _ & B6).
  destruct (read_u64 s6) as [[la s7]|e|] eqn:E7; cbn [bind] in H; [|discriminate..]. apply (read_u64_inv _ _ _ B6) in E7. destruct E7 as (-> & _ & B7).
  destruct (read_u32 s7) as [[nc s8]|e|] eqn:E8; cbn [bind] in H; [|discriminate..]. apply (read_u32_inv _ _ _ B7) in E8. destruct E8 as (-> & U8 & _).
  injection H as <- <-. cbn [h_wires h_constraints h_field_size]. unfold u32 in *. lia.
Qed.
Theorem r1cs_accepts b f : is_bytes b -> from_reader b = Ok f ->
  (exists k rest, b = [0x72; 0x31; 0x63; 0x73] ++ le_string 4 1 ++ le_string 4 k ++ rest) /\ h_field_size (f_header f) = 32 /\
  h_wires (f_header f) = zlen (f_map f) /\ h_constraints (f_header f) = zlen (f_constraints f) /\ nth_error (f_map f) 0 = Some 0.
Proof.
  intros B H. unfold from_reader in H.
  destruct (read_exact 4 b) as [[m s0]|e|] eqn:E0; cbn [bind] in H; [|discriminate..]. apply read_exact_inv in E0. destruct E0 as [Eb _].
  destruct (list_eq_dec _ _ _) as [->|_]; [|discriminate]. cbn [negb] in H. assert (B0 : is_bytes s0) by (rewrite Eb in B; apply bytes_app in B; apply B).
  destruct (read_u32 s0) as [[v s1]|e|] eqn:E1; cbn [bind] in H; [|discriminate..]. apply (read_u32_inv _ _ _ B0) in E1. destruct E1 as (-> & _ & B1).
  destruct (Z.eqb_spec v 1) as [->|]; [|discriminate]. cbn [negb] in H.
  destruct (read_u32 s1) as [[k s2]|e|] eqn:E2; cbn [bind] in H; [|discriminate..]. apply (read_u32_inv _ _ _ B1) in E2. destruct E2 as (-> & _ & _).
  destruct (read_sections b (Z.to_nat k) 12 []) as [t|e|] eqn:ES; cbn [bind] in H; [|discriminate..].
  destruct (section t 1) as [[o1 z1]|e|]; cbn [bind] in H; [|discriminate..].
  destruct (read_header (seek b o1) z1) as [[h s3]|e|] eqn:EH; cbn [bind] in H; [|discriminate..]. apply (read_header_inv _ _ _ _ (seek_bytes _ _ B)) in EH.
  destruct (Z.eqb_spec (h_field_size h) 32) as [F|]; [|discriminate]. cbn [negb] in H.
  destruct (section t 2) as [[o2 z2]|e|]; cbn [bind] in H; [|discriminate..].
  destruct (read_constraints (seek b o2) h) as [[cs s4]|e|] eqn:EC; cbn [bind] in H; [|discriminate..]. apply read_many_length in EC.
  destruct (section t 3) as [[o3 z3]|e|]; cbn [bind] in H; [|discriminate..].
  destruct (read_map (seek b o3) z3 h) as [[mp s5]|e|] eqn:EM; cbn [bind] in H; [|discriminate..]. injection H as <-. cbn [f_header f_map f_constraints].
  split; [exists k, s2; exact Eb|]. split; [exact F|]. unfold read_map in EM. destruct (negb _); [discriminate|].
  destruct (read_many read_u64 (Z.to_nat (h_wires h)) (seek b o3)) as [[l s6]|e|] eqn:EL; cbn [bind] in EM; [|discriminate..]. apply read_many_length in EL.
  unfold idx in EM. destruct (nth_error l 0) as [l0|] eqn:EN; cbn [of_opt bind] in EM; [|discriminate]. destruct (Z.eqb_spec l0 0) as [->|]; [|discriminate].
  injection EM as <- <-. unfold zlen. rewrite EL, EC, !Z2Nat.id by apply EH. auto.
Qed.
Theorem r1cs_rejects b : firstn 4 b <> [0x72; 0x31; 0x63; 0x73] \/ firstn 4 (skipn 4 b) <> le_string 4 1 -> is_bytes b -> from_reader b = Err OtherErr.
Proof.
  intros H B. unfold from_reader. destruct (read_exact 4 b) as [[m s0]|e|] eqn:E0; cbn [bind].
  - apply read_exact_inv in E0. destruct E0 as [-> L]. destruct (list_eq_dec _ _ _) as [->|_]; [|reflexivity]. cbn [negb].
    destruct H as [H|H]; [exfalso; apply H; reflexivity|]. cbn [app skipn] in H. apply bytes_app in B. destruct B as [_ B].
    destruct (read_u32 s0) as [[v s1]|e|] eqn:E1; cbn [bind].
    + apply (read_u32_inv _ _ _ B) in E1. destruct E1 as (-> & _ & _). destruct (Z.eqb_spec v 1) as [->|]; [|reflexivity].
      exfalso. apply H. pose proof (le_string_length 4 1) as LL. rewrite firstn_app, LL. rewrite firstn_all2 by (rewrite LL; apply le_n).
      change (4 - 4)%nat with 0%nat. cbn [firstn]. apply app_nil_r.
    + unfold read_u32, read_exact in E1. destruct (Nat.leb _ _); cbn [bind] in E1; [discriminate|]. congruence.
    + unfold read_u32, read_exact in E1. destruct (Nat.leb _ _); discriminate.
  - unfold read_exact in E0. destruct (Nat.leb _ _); congruence.
  - unfold read_exact in E0. destruct (Nat.leb _ _); discriminate.
Qed.

(** * Cases *)
(** w1 * w1 = 7 w2 with three wires *)
Definition exCircuit : circuit := MkCircuit 3 0 1 1 3 [([(1%nat, 1)], [(1%nat, 1)], [(2%nat, 7)])] [0; 1; 2].
Definition exPrime : list Z := le_string 32 p.
(** sections in the order map, custom, constraints, header *)
Definition exSections (c : circuit) : list (Z * list Z) := [(3, map_body c); (9, [1; 2; 3]); (2, cons_body c); (1, header_body exPrime c)].
Definition exFile : list Z := Eval vm_compute in r1cs_bytes (exSections exCircuit).
(** the same circuit with the canonical coefficient 2^224 - 1 *)
Definition exCircuit' : circuit := MkCircuit 3 0 1 1 3 [([(1%nat, 1)], [(1%nat, 1)], [(2%nat, 2 ^ 224 - 1)])] [0; 1; 2].
Lemma ex_circuit_ok k : 0 <= k < p -> circuit_ok (MkCircuit 3 0 1 1 3 [([(1%nat, 1)], [(1%nat, 1)], [(2%nat, k)])] [0; 1; 2]).
Proof.
  intro Hk. unfold circuit_ok. cbn [ci_wires ci_pub_out ci_pub_in ci_prv_in ci_labels ci_cons ci_map]. unfold u32, u64, zlen. cbn [length].
  do 6 (split; [lia|]). split.
  { intros a b d [E|[]]. injection E as <- <- <-. unfold lin_fits, u32, zlen. cbn [length].
    assert (P1 : 1 < p) by reflexivity.
    repeat split; try lia; intros; match goal with H : In _ _ |- _ => destruct H as [E|[]]; injection E as <- <- end; lia. }
  split; [lia|]. split; [repeat constructor; lia|reflexivity].
Qed.
Lemma ex_sections_ok k : sections_ok exPrime (MkCircuit 3 0 1 1 3 [([(1%nat, 1)], [(1%nat, 1)], [(2%nat, k)])] [0; 1; 2])
  (exSections (MkCircuit 3 0 1 1 3 [([(1%nat, 1)], [(1%nat, 1)], [(2%nat, k)])] [0; 1; 2])).
Proof.
  set (c := MkCircuit _ _ _ _ _ _ _). unfold sections_ok, exSections. split; [apply le_string_length|]. split; [apply le_string_bytes|].
  split; [cbn [In]; auto|]. split; [cbn [In]; auto|]. split; [cbn [In]; auto|].
  split. { cbn [map fst]. repeat constructor; cbn [In]; intuition lia. }
  split. { intros t b Hin. cbn [In] in Hin. unfold u32. repeat (destruct Hin as [Hin|Hin]; [injection Hin as <- _; lia|]). destruct Hin. }
  split; [unfold u32, zlen; cbn [length]; lia|].
  unfold r1cs_bytes. cbn [flat_map]. rewrite !zlen_app, !section_len, !zlen_le. cbn [snd]. rewrite map_len.
  assert (H1 : zlen (header_body exPrime c) = 64) by (unfold header_body; rewrite !zlen_app, !zlen_le; unfold zlen, exPrime; rewrite le_string_length; reflexivity).
  assert (H2 : zlen (cons_body c) = 120).
  { unfold cons_body, lin_bytes. cbn [c ci_cons flat_map]. rewrite !zlen_app, !zlen_le. reflexivity. }
  rewrite H1, H2. unfold zlen. cbn [length c ci_map]. lia.
Qed.
Definition exWitness : list Z := [1; 3; 5].
