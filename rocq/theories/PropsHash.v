(** C52: hashing 128 bytes to the curve secq256k1. *)
From Coq Require Import ZArith List Bool.
From Verif Require Import Base Primes Fermat Field Zq Limb LimbSpec CurveSpec Secq HashModel HashSpec HashField HashApi.
Import ListNotations.
Local Open Scope Z_scope.

(** the simplified SWU map, on the limbs, is the one of the RFC, for every field element *)
Theorem C52_swu : forall u, reach SECQ u ->
  exists a b, map_to_curve_simple_swu secq_traits u iso_a iso_b iso_z = Ok (a, b) /\
    reach SECQ a /\ reach SECQ b /\ sswu (fq u) (fq a) (fq b).
Proof. exact secq_swu. Qed.
Print Assumptions C52_swu.

(** the specification allows one result only *)
Theorem C52_swu_unique : forall u x y x' y', sswu u x y -> sswu u x' y' -> x = x' /\ y = y'.
Proof. exact sswu_fun. Qed.
Print Assumptions C52_swu_unique.

(** the square root of a ratio: the flag says whether the ratio is a square *)
Theorem C52_sqrt_ratio : forall u v, reach SECQ u -> reach SECQ v -> fq u <> f0 -> fq v <> f0 ->
  let '(b, y) := sqrt_ratio secq_traits u v in
  reach SECQ y /\ (b = true <-> is_square (fdiv (fq u) (fq v))) /\
  fmul (fq y) (fq y) = (if b then fdiv (fq u) (fq v) else fmul zE (fdiv (fq u) (fq v))).
Proof. exact secq_ratio. Qed.
Print Assumptions C52_sqrt_ratio.

(** the map from E': on E' its denominators never vanish, and it lands on the curve *)
Theorem C52_isogeny : forall a b, reach SECQ a -> reach SECQ b -> fmul (fq b) (fq b) = gE (fq a) ->
  exists c d, iso_map secq_traits a b iso_constants = Ok (c, d) /\ reach SECQ c /\ reach SECQ d /\
    (fq c, fq d) = iso3 (fq a) (fq b) /\ on_curve secq (Some (fq c, fq d)) = true.
Proof. exact secq_iso. Qed.
Print Assumptions C52_isogeny.

(** reading coordinates back: accepted exactly when they satisfy the curve equation *)
Theorem C52_coordinates_checked : forall P, reach SECQ (fst P) -> reach SECQ (snd P) ->
  from_coordinates P = if on_curve secq (Some (fq2 P)) then Some P else None.
Proof. exact coords_ok. Qed.
Print Assumptions C52_coordinates_checked.

(** every 128-byte string: no panic, and the sum of two points that are determined by the two
    halves and lie on the curve *)
Theorem C52_from_uniform_bytes : forall bs, length bs = 128%nat -> bytes_ok bs ->
  exists P1 P2, from_uniform_bytes sum_points bs = Ok (eadd (Some P1) (Some P2)) /\
    half_hash (firstn 64 bs) P1 /\ half_hash (skipn 64 bs) P2 /\
    on_curve secq (Some P1) = true /\ on_curve secq (Some P2) = true /\
    on_curve secq (eadd (Some P1) (Some P2)) = true.
Proof. exact uniform_on. Qed.
Print Assumptions C52_from_uniform_bytes.

(** whatever meets the specification of the halves is the result *)
Theorem C52_value : forall bs P1 P2, length bs = 128%nat -> bytes_ok bs ->
  half_hash (firstn 64 bs) P1 -> half_hash (skipn 64 bs) P2 ->
  from_uniform_bytes sum_points bs = Ok (eadd (Some P1) (Some P2)).
Proof. exact uniform_value. Qed.
Print Assumptions C52_value.

(** the library's two test vectors (affine.rs:328-356): for the first the ratio is a square, for
    the second it is not *)
Definition half1 : Fn * Fn :=
  (fn 22189563818595818524149446239563299848402535178723963354951423253586524444110,
   fn 29789375835532086127039486260227457840263696901444594965112258771586931511665).
Definition half2 : Fn * Fn :=
  (fn 38855737051756013187385106146290227179590412734301085399503774601069223074154,
   fn 63080409453731234280176324644452260435435751386569606874478270017483129821967).
Ltac iso_eval := match goal with
  | |- _ <> _ => let E := fresh in intro E; apply (f_equal (@zval n)) in E; vm_compute in E; discriminate E
  | |- _ = _ => apply (zq_eq n); vm_compute; reflexivity end.
Example C52_half_square : half_hash (repeat 1 64) half1.
Proof.
  exists (fn 113920022542166719469685491230434954472747242480141973701986003581196525504160),
         (fn 68489260303051666088379725878611635925024458476285252192978813275679100029520).
  split; [|refine (iso3_by _ _ _ _ _ _ _ _ eq_refl eq_refl eq_refl eq_refl _ _ _ _); iso_eval].
  assert (X1 : sswu_x1 (fn (of_le (repeat 1 64))) = fn 113920022542166719469685491230434954472747242480141973701986003581196525504160)
    by (refine (x1_by _ _ _ eq_refl _ _); iso_eval).
  unfold sswu, sswu_x2. rewrite X1.
  split; [intros _; reflexivity|].
  split; [intro N; exfalso; apply N; exists (fn 47302828934264529335191259130076271927813105802789652189626349865839061464817);
          apply (zq_eq n); vm_compute; reflexivity|].
  split; [apply (zq_eq n); vm_compute; reflexivity|vm_compute; reflexivity].
Qed.
Example C52_half_nonsquare : half_hash (repeat 255 64) half2.
Proof.
  exists (fn 21551289176316637445229890149638900999396404639874731076053487529059435285043),
         (fn 110066760013973087720347234589691600802159185794748096632438574006092415565615).
  split; [|refine (iso3_by _ _ _ _ _ _ _ _ eq_refl eq_refl eq_refl eq_refl _ _ _ _); iso_eval].
  assert (X1 : sswu_x1 (fn (of_le (repeat 255 64))) = fn 65226777275790114387577890279532068177674515918337809602756287549392630787141)
    by (refine (x1_by _ _ _ eq_refl _ _); iso_eval).
  unfold sswu, sswu_x2. rewrite X1.
  split; [intro S; exfalso; revert S; apply (not_square_by _ (fn 115248529744976957891421022019267722895259640045659555261963670364339651254587)); iso_eval|].
  split; [intros _; apply (zq_eq n); vm_compute; reflexivity|].
  split; [apply (zq_eq n); vm_compute; reflexivity|vm_compute; reflexivity].
Qed.
Definition point_bytes (P : option (Fn * Fn)) : list Z :=
  match P with None => [0] | Some (x, y) => (2 + zval y mod 2) :: rev (le_bytes 32 (zval x)) end.
Lemma bytes_rep b k : 0 <= b < 256 -> bytes_ok (repeat b k).
Proof. intro H. apply Forall_forall. intros x Hx. apply repeat_spec in Hx. subst. exact H. Qed.
Example C52_case :
  (exists P, from_uniform_bytes sum_points (repeat 1 128) = Ok P /\
     point_bytes P = [3; 24; 36; 60; 213; 183; 10; 225; 197; 211; 160; 231; 226; 115; 43; 236; 156; 4; 195; 217; 173; 140;
                      136; 199; 137; 204; 135; 28; 56; 55; 158; 90; 42]) /\
  (exists P, from_uniform_bytes sum_points (repeat 255 128) = Ok P /\
     point_bytes P = [2; 224; 201; 211; 109; 246; 2; 231; 80; 53; 75; 7; 198; 101; 138; 177; 41; 203; 12; 215; 7; 190; 221;
                      177; 146; 53; 58; 202; 32; 229; 192; 136; 229]).
Proof.
  split.
  - exists (eadd (Some half1) (Some half1)). split.
    2: { unfold half1.
      rewrite (double_by _ _ (fn 38983874287817202152429628594783930087091493365427529856362322105849113022511)
        (fn 10919534726856488633315685888519288884450241421197424556252564812979198908970)
        (fn 5270687835378384320065339965503587713651273843091627977426037729326998043057));
        [vm_compute; reflexivity|iso_eval|iso_eval|iso_eval|iso_eval|iso_eval]. }
    apply C52_value; [reflexivity|apply bytes_rep; split; [discriminate|reflexivity]|exact C52_half_square|exact C52_half_square].
  - exists (eadd (Some half2) (Some half2)). split.
    2: { unfold half2.
      rewrite (double_by _ _ (fn 35898371146970246301309018149680772783759962993023213560085202422032473650696)
        (fn 101674673575693503983156574921309896423878393338372175415627296029647386478821)
        (fn 54371945300778829504790586606823253914721886942408552971661292272468648108076));
        [vm_compute; reflexivity|iso_eval|iso_eval|iso_eval|iso_eval|iso_eval]. }
    apply C52_value; [reflexivity|apply bytes_rep; split; [discriminate|reflexivity]|exact C52_half_nonsquare|exact C52_half_nonsquare].
Qed.
