(** From the field to the limbs: the functions of hashtocurve.rs and affine.rs. *)
From Coq Require Import ZArith Znumtheory List Bool Lia Field Ring.
From Verif Require Import Base Fermat Primes Field Zq Limb LimbSpec LimbProofs LimbInt LimbInst LimbApi CurveSpec CurveProofs Secq.
From Verif Require Import HashModel HashSpec HashField HashIso HashSwu HashParam.
Import ListNotations.
Local Open Scope Z_scope.
Add Field Knh : (fth Fn).

Local Notation V := SECQ_valid.
Lemma zval_fn z : zval (fn z) = z mod n. Proof. reflexivity. Qed.
Definition rel (a : fe) (x : Fn) : Prop := reach SECQ a /\ fq a = x.

Lemma R_add a b x y : rel a x -> rel b y -> rel (add SECQ a b) (fadd x y).
Proof.
  intros [Ra <-] [Rb <-]. split; [apply reach_add; assumption|]. unfold fq.
  rewrite (api_add _ _ V a b Ra Rb), HashIso.fn_mod. apply fn_add.
Qed.
Lemma R_sub a b x y : rel a x -> rel b y -> rel (sub SECQ a b) (fsub x y).
Proof.
  intros [Ra <-] [Rb <-]. split; [apply reach_sub; assumption|]. unfold fq.
  rewrite (api_sub _ _ V a b Ra Rb), HashIso.fn_mod. apply fn_sub.
Qed.
Lemma R_mul a b x y : rel a x -> rel b y -> rel (mul SECQ a b) (fmul x y).
Proof.
  intros [Ra <-] [Rb <-]. split; [apply reach_mul; assumption|]. unfold fq.
  rewrite (api_mul _ _ V a b Ra Rb), HashIso.fn_mod. apply fn_mul.
Qed.
Lemma R_neg a x : rel a x -> rel (neg SECQ a) (fopp x).
Proof.
  intros [Ra <-]. split; [apply reach_neg; assumption|]. unfold fq.
  rewrite (api_neg _ _ V a Ra), HashIso.fn_mod. symmetry. exact (zof_opp n prime_n _).
Qed.
Lemma R_eqb a b x y : rel a x -> rel b y -> Limb.eqb a b = feqb x y.
Proof.
  intros [Ra <-] [Rb <-]. apply eq_true_iff_eq. rewrite (api_eqb _ _ V a b Ra Rb), feqb_t. unfold fq. split.
  - intros ->. reflexivity.
  - intro H. apply (f_equal (@zval n)) in H. rewrite !zval_fn in H.
    rewrite !Z.mod_small in H by (apply (api_range _ _ V); assumption). exact H.
Qed.
Lemma rel_val a x : rel a x -> zval x = fint SECQ a.
Proof. intros [Ra <-]. unfold fq. rewrite zval_fn. apply Z.mod_small. apply (api_range _ _ V), Ra. Qed.
Lemma R_zero : rel zero f0.
Proof. split; [apply reach_zero|]. apply (zq_eq n). vm_compute. reflexivity. Qed.
Lemma R_one : rel (one SECQ) f1.
Proof. split; [apply reach_one|]. apply (zq_eq n). vm_compute. reflexivity. Qed.
Lemma R_odd a x : rel a x -> is_odd SECQ a = Z.odd (zval x).
Proof. intro H. rewrite (rel_val _ _ H). apply (api_odd _ _ V), H. Qed.
Lemma R_pow a b x y : rel a x -> rel b y -> rel (pow_by_self SECQ a b) (fpw x (zval y)).
Proof.
  intros Ha Hb. split.
  - apply (wf_reach _ _ V). apply (LimbInt.pow_by_self_spec _ _ V); apply (reach_wf _ _ V); [apply Ha|apply Hb].
  - unfold fq. rewrite (api_pow_by_self _ _ V a b (proj1 Ha) (proj1 Hb)), HashIso.fn_mod.
    rewrite <- (rel_val _ _ Hb), <- (rel_val _ _ Ha). reflexivity.
Qed.
Lemma R_from v : u64 v -> rel (from_u64 SECQ v) (fn v).
Proof. intro H. split; [apply reach_u64, H|]. unfold fq. rewrite (api_u64 _ _ V v H). apply HashIso.fn_mod. Qed.
Lemma R_sq a x : rel a x -> rel (pow_vartime SECQ a [2; 0; 0; 0]) (fmul x x).
Proof.
  intros [Ra <-]. assert (F : Forall u64 [2; 0; 0; 0]) by (repeat constructor; discriminate).
  destruct (api_pow _ _ V a [2; 0; 0; 0] Ra F) as [E1 E2]. rewrite E1. split; [apply reach_pow; assumption|].
  unfold fq. rewrite E2, HashIso.fn_mod. change (of_words [2; 0; 0; 0]) with 2. rewrite Z.pow_2_r. apply fn_mul.
Qed.
Lemma R_invert a x : rel a x -> relo rel (secq_invert SECQ a) (t_invert fn_traits x).
Proof.
  intro H. pose proof (inv_ok_invert_ok _ _ V _ secq_invert_spec a (proj1 H)) as [H1 H2].
  change (t_invert fn_traits x) with (if feqb x f0 then None else Some (finv x)).
  rewrite <- (rel_val _ _ H) in *. destruct (feqb_spec Fn x f0) as [E|E].
  - rewrite H2 by (apply zval_0, E). exact I.
  - destruct H1 as (b & -> & Rb & Eb); [intro Z0; apply E, zval_0, Z0|]. split; [exact Rb|].
    assert (M : fmul x (fq b) = f1).
    { rewrite <- (fn_zval x). unfold fq. rewrite <- fn_mul. apply (zq_eq n). rewrite zval_fn. exact Eb. }
    transitivity (fmul (finv x) (fmul x (fq b))); [field; exact E|rewrite M; field; exact E].
Qed.

(** constants *)
Lemma R_const a v : limbs_ok a -> (val a <? n) = true -> (fint SECQ a =? v mod n) = true -> rel a (fn v).
Proof.
  intros L W E. split; [apply (wf_reach _ _ V); split; [exact L|apply Z.ltb_lt, W]|].
  apply Z.eqb_eq in E. unfold fq. rewrite E. apply HashIso.fn_mod.
Qed.
Ltac const := apply R_const; [repeat split; try (vm_compute; congruence)|vm_compute; reflexivity|vm_compute; reflexivity].
Lemma R_C3 : rel (C3 secq_traits) (C3 fn_traits). Proof. const. Qed.
Lemma R_C4 : rel (C4 secq_traits) (C4 fn_traits). Proof. const. Qed.
Lemma R_C5 : rel (C5 secq_traits) (C5 fn_traits). Proof. const. Qed.
Lemma R_C6 : rel (C6 secq_traits) (C6 fn_traits). Proof. const. Qed.
Lemma R_C7 : rel (C7 secq_traits) (C7 fn_traits). Proof. const. Qed.
Lemma R_a : rel iso_a aE. Proof. const. Qed.
Lemma R_b : rel iso_b bE. Proof. const. Qed.
Lemma R_z : rel iso_z zE. Proof. const. Qed.
Lemma R_k : Forall2 rel iso_constants (map fn kZ).
Proof.
  assert (Raw : forall a b c d v, u64 a -> u64 b -> u64 c -> u64 d -> (fint SECQ (from_raw SECQ a b c d) =? v mod n) = true -> rel (from_raw SECQ a b c d) (fn v)).
  { intros a b c d v Ha Hb Hc Hd E. split; [apply reach_raw; assumption|]. apply Z.eqb_eq in E. unfold fq. rewrite E. apply HashIso.fn_mod. }
  unfold iso_constants, kZ. cbn [map].
  repeat (constructor; [apply Raw; try (split; [discriminate|reflexivity]); vm_compute; reflexivity|]). constructor.
Qed.


Lemma traits_resp : resp secq_traits fn_traits rel.
Proof.
  constructor.
  - exact R_add.
  - exact R_sub.
  - exact R_mul.
  - exact R_pow.
  - exact R_neg.
  - exact R_sq.
  - exact R_one.
  - exact R_from.
  - exact R_eqb.
  - intros a x H. exact (R_eqb a zero x f0 H R_zero).
  - exact R_odd.
  - exact R_invert.
  - reflexivity.
  - reflexivity.
  - exact R_C3.
  - exact R_C4.
  - exact R_C5.
  - exact R_C6.
  - exact R_C7.
Qed.

Lemma secq_swu u : reach SECQ u ->
  exists a b, map_to_curve_simple_swu secq_traits u iso_a iso_b iso_z = Ok (a, b) /\
    reach SECQ a /\ reach SECQ b /\ sswu (fq u) (fq a) (fq b).
Proof.
  intro Hu. destruct (swu_ok (fq u)) as (x & y & E & HS).
  pose proof (R_swu _ _ _ traits_resp _ _ _ _ _ _ R_a R_b R_z u (fq u) (conj Hu eq_refl)) as R.
  rewrite E in R. destruct (map_to_curve_simple_swu secq_traits u iso_a iso_b iso_z) as [[a b]|e|]; try contradiction.
  cbn [relr fst snd] in R. destruct R as [[R1 <-] [R2 <-]]. exists a, b. auto.
Qed.
Lemma secq_iso a b : reach SECQ a -> reach SECQ b -> fmul (fq b) (fq b) = gE (fq a) ->
  exists c d, iso_map secq_traits a b iso_constants = Ok (c, d) /\ reach SECQ c /\ reach SECQ d /\
    (fq c, fq d) = iso3 (fq a) (fq b) /\ on_curve secq (Some (fq c, fq d)) = true.
Proof.
  intros Ha Hb E. destruct (iso_ok _ _ E) as (X & Y & EX & E3 & EY).
  pose proof (R_iso _ _ _ traits_resp _ _ R_k a b (fq a) (fq b) (conj Ha eq_refl) (conj Hb eq_refl)) as R.
  rewrite EX in R. destruct (iso_map secq_traits a b iso_constants) as [[c d]|e|]; try contradiction.
  cbn [relr fst snd] in R. destruct R as [[R1 <-] [R2 <-]]. exists c, d.
  exact (conj eq_refl (conj R1 (conj R2 (conj E3 (proj2 (feqb_t _ _) EY))))).
Qed.
Lemma bind_ok {A B} (a : A) (f : A -> res B) : bind (Ok a) f = f a. Proof. reflexivity. Qed.
Lemma some_ok {A} (a : A) : of_opt (Some a) = Ok a. Proof. reflexivity. Qed.
Lemma fst_p {A B} (a : A) (b : B) : fst (a, b) = a. Proof. reflexivity. Qed.
Lemma snd_p {A B} (a : A) (b : B) : snd (a, b) = b. Proof. reflexivity. Qed.
Lemma secq_hash u1 u2 : reach SECQ u1 -> reach SECQ u2 ->
  exists P1 P2, hash_to_curve secq_traits u1 u2 iso_a iso_b iso_z iso_constants = Ok (P1, P2) /\
    (reach SECQ (fst P1) /\ reach SECQ (snd P1) /\ on_curve secq (Some (fq2 P1)) = true /\
     exists x y, sswu (fq u1) x y /\ fq2 P1 = iso3 x y) /\
    (reach SECQ (fst P2) /\ reach SECQ (snd P2) /\ on_curve secq (Some (fq2 P2)) = true /\
     exists x y, sswu (fq u2) x y /\ fq2 P2 = iso3 x y).
Proof.
  intros H1 H2. destruct (secq_swu u1 H1) as (a & b & E1 & Ra & Rb & S1). destruct (secq_swu u2 H2) as (a' & b' & E2 & Ra' & Rb' & S2).
  destruct (secq_iso a b Ra Rb) as (c & d & E3 & Rc & Rd & I1 & O1); [apply S1|].
  destruct (secq_iso a' b' Ra' Rb') as (c' & d' & E4 & Rc' & Rd' & I2 & O2); [apply S2|].
  unfold hash_to_curve. rewrite E1, bind_ok, E2, bind_ok, !fst_p, !snd_p, E3, bind_ok, E4, bind_ok.
  exists (c, d), (c', d'). unfold fq2. rewrite !fst_p, !snd_p. split; [reflexivity|].
  exact (conj (conj Rc (conj Rd (conj O1 (ex_intro _ _ (ex_intro _ _ (conj S1 I1))))))
              (conj Rc' (conj Rd' (conj O2 (ex_intro _ _ (ex_intro _ _ (conj S2 I2))))))).
Qed.
Lemma R_B : rel EQUATION_B (fn 7). Proof. const. Qed.
Lemma rel_feqb a b x y : rel a x -> rel b y -> Limb.eqb a b = feqb x y. Proof. exact (R_eqb a b x y). Qed.
Lemma coords_ok P : reach SECQ (fst P) -> reach SECQ (snd P) ->
  from_coordinates P = if on_curve secq (Some (fq2 P)) then Some P else None.
Proof.
  destruct P as [x y]. cbn [fst snd]. intros Hx Hy. unfold from_coordinates. cbn [fst snd].
  rewrite (proj2 (api_be _ _ V x Hx)), (proj2 (api_be _ _ V y Hy)).
  assert (Rx : rel x (fq x)) by (split; auto). assert (Ry : rel y (fq y)) by (split; auto).
  assert (R0 := R_zero). assert (RB := R_B).
  rewrite (rel_feqb _ _ (fmul (fq y) (fq y)) (fadd (fadd (fmul (fmul (fq x) (fq x)) (fq x)) (fmul f0 (fq x))) (fn 7)))
    by auto using R_add, R_mul.
  cbn [on_curve fq2 fst snd]. change (cb secq) with (fn 7).
  replace (fadd (fadd (fmul (fmul (fq x) (fq x)) (fq x)) (fmul f0 (fq x))) (fn 7)) with (fadd (fmul (fmul (fq x) (fq x)) (fq x)) (fn 7)) by ring.
  reflexivity.
Qed.
Lemma fq_wide bs : length bs = 64%nat -> bytes_ok bs -> reach SECQ (from_bytes_wide SECQ bs) /\ fq (from_bytes_wide SECQ bs) = fn (of_le bs).
Proof.
  intros HL HB. destruct (from_bytes_wide_spec SECQ n V bs HL HB) as [W E]. split; [apply (wf_reach _ _ V), W|].
  unfold fq. rewrite E. apply HashIso.fn_mod.
Qed.
Lemma uniform_ok (bs : list Z) : length bs = 128%nat -> bytes_ok bs ->
  exists P1 P2, (forall G (padd : fe * fe -> fe * fe -> G), from_uniform_bytes padd bs = Ok (padd P1 P2)) /\
    half_hash (firstn 64 bs) (fq2 P1) /\ half_hash (skipn 64 bs) (fq2 P2) /\
    on_curve secq (Some (fq2 P1)) = true /\ on_curve secq (Some (fq2 P2)) = true.
Proof.
  intros HL HB. unfold from_uniform_bytes. cbv zeta.
  replace (slice bs 0 64) with (firstn 64 bs) by reflexivity.
  replace (slice bs 64 128) with (skipn 64 bs) by (unfold slice; rewrite firstn_all2; [reflexivity|rewrite skipn_length; lia]).
  assert (B1 : bytes_ok (firstn 64 bs)) by (rewrite <- (firstn_skipn 64 bs) in HB; apply Forall_app in HB; apply HB).
  assert (B2 : bytes_ok (skipn 64 bs)) by (rewrite <- (firstn_skipn 64 bs) in HB; apply Forall_app in HB; apply HB).
  destruct (fq_wide (firstn 64 bs)) as [R1 E1]; [rewrite firstn_length; lia|exact B1|].
  destruct (fq_wide (skipn 64 bs)) as [R2 E2]; [rewrite skipn_length; lia|exact B2|].
  destruct (secq_hash _ _ R1 R2) as (P1 & P2 & E & (Rx1 & Ry1 & O1 & x1 & y1 & S1 & I1) & (Rx2 & Ry2 & O2 & x2 & y2 & S2 & I2)).
  rewrite E1 in S1. rewrite E2 in S2.
  exists P1, P2. split;
    [|exact (conj (ex_intro _ _ (ex_intro _ _ (conj S1 I1))) (conj (ex_intro _ _ (ex_intro _ _ (conj S2 I2))) (conj O1 O2)))].
  intros G padd. rewrite E, bind_ok, fst_p, snd_p, (coords_ok P1 Rx1 Ry1), O1, some_ok, bind_ok, (coords_ok P2 Rx2 Ry2), O2, some_ok, bind_ok. reflexivity.
Qed.

(** the sum of the two points, and its value computed in the field *)
Definition sum_points (a b : fe * fe) : option (Fn * Fn) := eadd (Some (fq2 a)) (Some (fq2 b)).
Lemma uniform_on (bs : list Z) : length bs = 128%nat -> bytes_ok bs ->
  exists P1 P2, from_uniform_bytes sum_points bs = Ok (eadd (Some P1) (Some P2)) /\
    half_hash (firstn 64 bs) P1 /\ half_hash (skipn 64 bs) P2 /\
    on_curve secq (Some P1) = true /\ on_curve secq (Some P2) = true /\
    on_curve secq (eadd (Some P1) (Some P2)) = true.
Proof.
  intros HL HB. destruct (uniform_ok bs HL HB) as (P1 & P2 & E & A & B & C & D).
  exists (fq2 P1), (fq2 P2). split; [rewrite (E _ sum_points); reflexivity|]. exact (conj A (conj B (conj C (conj D (on_add secq _ _ C D))))).
Qed.

(** ** the specification determines the result *)
Lemma square_dec (a : Fn) : is_square a \/ ~ is_square a.
Proof.
  destruct (fdec a f0) as [->|N]; [left; exists f0; ring|].
  pose proof (sqrt_ratio_ok a f1) as H. destruct (sqrt_ratio fn_traits a f1) as [b y]. destruct H as (Hb & H1 & _). destruct b.
  - left. exists y. rewrite <- (H1 eq_refl). ring.
  - right. intro S. assert (L : leg a f1 = f1).
    { apply leg_square; [exact N|intro E; apply (f_equal (@zval n)) in E; discriminate E|].
      replace (fdiv a f1) with a by (field; intro E; apply (f_equal (@zval n)) in E; discriminate E). exact S. }
    rewrite L in Hb. rewrite (proj2 (feqb_t f1 f1) eq_refl) in Hb. discriminate Hb.
Qed.
Lemma sswu_fun u x y x' y' : sswu u x y -> sswu u x' y' -> x = x' /\ y = y'.
Proof.
  intros (A & B & C & D) (A' & B' & C' & D').
  assert (E : x = x') by (destruct (square_dec (gE (sswu_x1 u))) as [S|S]; [rewrite (A S), (A' S)|rewrite (B S), (B' S)]; reflexivity).
  split; [exact E|]. subst x'.
  assert (M : fmul (fsub y y') (fadd y y') = f0) by (transitivity (fsub (fmul y y) (fmul y' y')); [ring|rewrite C, C'; ring]).
  destruct (fmul_0 _ _ M) as [Z0|Z0]; [transitivity (fadd (fsub y y') y'); [ring|rewrite Z0; ring]|].
  assert (Ey : y = fopp y') by (transitivity (fsub (fadd y y') y'); [ring|rewrite Z0; ring]).
  destruct (fdec y' f0) as [N|N]; [rewrite Ey, N; ring|].
  exfalso. rewrite Ey, (odd_opp y' N), D' in D. destruct (Z.odd (zval u)); discriminate D.
Qed.
Lemma half_hash_fun bs P Q : half_hash bs P -> half_hash bs Q -> P = Q.
Proof.
  intros (x & y & S & ->) (x' & y' & S' & ->). destruct (sswu_fun _ _ _ _ _ S S') as [-> ->]. reflexivity.
Qed.
Lemma uniform_value (bs : list Z) P1 P2 : length bs = 128%nat -> bytes_ok bs ->
  half_hash (firstn 64 bs) P1 -> half_hash (skipn 64 bs) P2 ->
  from_uniform_bytes sum_points bs = Ok (eadd (Some P1) (Some P2)).
Proof.
  intros HL HB H1 H2. destruct (uniform_on bs HL HB) as (Q1 & Q2 & E & A & B & _).
  rewrite (half_hash_fun _ _ _ H1 A), (half_hash_fun _ _ _ H2 B). exact E.
Qed.
Lemma secq_ratio u v : reach SECQ u -> reach SECQ v -> fq u <> f0 -> fq v <> f0 ->
  let '(b, y) := sqrt_ratio secq_traits u v in
  reach SECQ y /\ (b = true <-> is_square (fdiv (fq u) (fq v))) /\
  fmul (fq y) (fq y) = (if b then fdiv (fq u) (fq v) else fmul zE (fdiv (fq u) (fq v))).
Proof.
  intros Hu Hv Nu Nv.
  pose proof (R_ratio _ _ _ traits_resp u v (fq u) (fq v) (conj Hu eq_refl) (conj Hv eq_refl)) as [E1 E2].
  pose proof (sqrt_ratio_ok (fq u) (fq v)) as H.
  destruct (sqrt_ratio secq_traits u v) as [b y]. destruct (sqrt_ratio fn_traits (fq u) (fq v)) as [b' y'].
  rewrite !fst_p in E1. rewrite !snd_p in E2. subst b'. destruct E2 as [Ry <-]. destruct H as (Hb & H1 & H2).
  split; [exact Ry|]. split.
  - split.
    + intro T. exists (fq y). rewrite <- (H1 T) at 1. field. exact Nv.
    + intro S. rewrite Hb, (leg_square _ _ Nu Nv S). apply feqb_t. reflexivity.
  - destruct b; [rewrite <- (H1 eq_refl) at 1; field; exact Nv|].
    replace (fmul zE (fdiv (fq u) (fq v))) with (fdiv (fmul zE (fq u)) (fq v)) by (field; exact Nv).
    rewrite <- (H2 eq_refl Nv). field. exact Nv.
Qed.

(** ** evaluating the specification *)
Lemma not_square_by (a w : Fn) : w <> f0 -> a = fmul zE (fmul w w) -> ~ is_square a.
Proof. intros W E (s & S). apply (zE_square_times w s W). rewrite S, E. reflexivity. Qed.
Lemma x1_by u x t : t = fadd (fmul (fmul zE zE) (fmul (fmul u u) (fmul u u))) (fmul zE (fmul u u)) -> t <> f0 ->
  fmul (fmul aE x) t = fopp (fmul bE (fadd f1 t)) -> sswu_x1 u = x.
Proof.
  intros Et T E. unfold sswu_x1. cbv zeta. rewrite <- Et. destruct (feqb_spec Fn t f0) as [C|_]; [contradiction|].
  transitivity (fdiv (fopp (fmul bE (fadd f1 t))) (fmul aE t)); [field; split; [exact T|exact aE_nz]|].
  rewrite <- E. field. split; [exact T|exact aE_nz].
Qed.
Lemma iso3_by x y a b c d X Y :
  a = fadd (fadd (fadd (fmul (kq 0) (fmul (fmul x x) x)) (fmul (kq 1) (fmul x x))) (fmul (kq 2) x)) (kq 3) ->
  b = fadd (fadd (fmul x x) (fmul (kq 4) x)) (kq 5) ->
  c = fadd (fadd (fadd (fmul (kq 6) (fmul (fmul x x) x)) (fmul (kq 7) (fmul x x))) (fmul (kq 8) x)) (kq 9) ->
  d = fadd (fadd (fadd (fmul (fmul x x) x) (fmul (kq 10) (fmul x x))) (fmul (kq 11) x)) (kq 12) ->
  b <> f0 -> d <> f0 -> fmul X b = a -> fmul Y d = fmul y c -> (X, Y) = iso3 x y.
Proof.
  intros -> -> -> -> B D EX EY. unfold iso3. cbv zeta. rewrite <- EX, <- EY. f_equal; field; assumption.
Qed.
Lemma double_by x y l x3 y3 : fmul (fadd f1 f1) y <> f0 -> y <> fopp y ->
  fmul l (fmul (fadd f1 f1) y) = fmul (fadd (fadd f1 f1) f1) (fmul x x) ->
  x3 = fsub (fsub (fmul l l) x) x -> y3 = fsub (fmul l (fsub x x3)) y ->
  eadd (K:=Fn) (Some (x, y)) (Some (x, y)) = Some (x3, y3).
Proof.
  intros N Y E -> ->. cbn [eadd]. destruct (feqb_spec Fn x x) as [_|A]; [|exfalso; apply A; reflexivity].
  destruct (feqb_spec Fn y (fopp y)) as [A|_]; [contradiction|]. cbv zeta. rewrite <- E. clear E.
  generalize dependent (fmul (fadd f1 f1) y). intros d N.
  replace (fdiv (fmul l d) d) with l; [reflexivity|]. field. exact N.
Qed.
