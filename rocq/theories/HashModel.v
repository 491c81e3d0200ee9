(** Model of hashing to the curve secq256k1:
      packages/secq256k1/src/hashtocurve.rs
      packages/secq256k1/src/field/mod.rs        the traits BaseField, SqrtRatio
      packages/secq256k1/src/field/field_secq.rs:209-280, field_secp.rs:213-283   sqrt_ratio
      packages/secq256k1/src/affine.rs:95-242    the constants, from_uniform_bytes
      packages/secq256k1/src/lib.rs:25-75        the curve
    The generic functions are written over a record of the operations that the trait
    bounds provide, and instantiated with the limb arithmetic of Limb.v. *)
From Coq Require Import ZArith List Bool.
From Verif Require Import Base Limb.
Import ListNotations.
Local Open Scope Z_scope.

(** what [F: BaseField + SqrtRatio] provides; [t_pow] is pow_by_self, [t_from] is From<u64>,
    [t_sq] is pow_vartime(&[2, 0, 0, 0]), [t_odd] is is_odd *)
Record traits (F : Type) : Type := MkTraits {
  t_one : F; t_add : F -> F -> F; t_sub : F -> F -> F; t_mul : F -> F -> F; t_neg : F -> F;
  t_eq : F -> F -> bool; t_zero : F -> bool; t_odd : F -> bool; t_invert : F -> option F;
  t_from : Z -> F; t_pow : F -> F -> F; t_sq : F -> F;
  C1 : nat; C3 : F; C4 : F; C5 : F; C6 : F; C7 : F
}.
Arguments t_one {F} _. Arguments t_add {F} _ _ _. Arguments t_sub {F} _ _ _. Arguments t_mul {F} _ _ _.
Arguments t_neg {F} _ _. Arguments t_eq {F} _ _ _. Arguments t_zero {F} _ _. Arguments t_odd {F} _ _.
Arguments t_invert {F} _ _. Arguments t_from {F} _ _. Arguments t_pow {F} _ _ _. Arguments t_sq {F} _ _.
Arguments C1 {F} _. Arguments C3 {F} _. Arguments C4 {F} _. Arguments C5 {F} _. Arguments C6 {F} _. Arguments C7 {F} _.

Section Generic.
  Context {F : Type}.
  Variable T : traits F.
  Local Infix "+" := (t_add T).
  Local Infix "*" := (t_mul T).
  (** [conditional_select(a, b, choice)] *)
  Definition sel (a b : F) (choice : bool) : F := if choice then b else a.

  (** field_secq.rs:265-276, field_secp.rs:268-279: the loop over i, with (tv1, tv3, tv4) *)
  Definition sr_step (st : F * F * F) (i : nat) : F * F * F :=
    let '(tv1, tv3, tv4) := st in
    let two := t_from T 2 in
    let tv5 := t_sub T (t_from T (Z.of_nat i)) two in
    let tv5 := t_pow T two tv5 in
    let tv5 := t_pow T tv4 tv5 in
    let e1 := t_eq T tv5 (t_one T) in
    let tv2 := tv3 * tv1 in
    let tv1 := tv1 * tv1 in
    let tv5 := tv4 * tv1 in
    (tv1, sel tv2 tv3 e1, sel tv5 tv4 e1).

  (** field_secq.rs:246-279, field_secp.rs:248-282: the two bodies are the same *)
  Definition sqrt_ratio (u v : F) : bool * F :=
    let tv1 := C6 T in
    let tv2 := t_pow T v (C4 T) in
    let tv3 := t_pow T tv2 (t_from T 2) in
    let tv3 := tv3 * v in
    let tv5 := u * tv3 in
    let tv5 := t_pow T tv5 (C3 T) in
    let tv5 := tv5 * tv2 in
    let tv2 := tv5 * v in
    let tv3 := tv5 * u in
    let tv4 := tv3 * tv2 in
    let tv5 := t_pow T tv4 (C5 T) in
    let is_qr := t_eq T tv5 (t_one T) in
    let tv2 := tv3 * C7 T in
    let tv5 := tv4 * tv1 in
    let tv3 := sel tv2 tv3 is_qr in
    let tv4 := sel tv5 tv4 is_qr in
    let '(_, tv3, _) := fold_left sr_step (rev (seq 2 (C1 T - 1))) (tv1, tv3, tv4) in
    (is_qr, tv3).

  (** hashtocurve.rs:41-74; [unwrap] of the inversion panics on zero *)
  Definition map_to_curve_simple_swu (u curve_a curve_b z : F) : res (F * F) :=
    let tv1 := u * u in
    let tv1 := z * tv1 in
    let tv2 := tv1 * tv1 in
    let tv2 := tv2 + tv1 in
    let tv3 := tv2 + t_one T in
    let tv3 := curve_b * tv3 in
    let tv4 := sel z (t_neg T tv2) (negb (t_zero T tv2)) in
    let tv4 := curve_a * tv4 in
    let tv2 := tv3 * tv3 in
    let tv6 := tv4 * tv4 in
    let tv5 := curve_a * tv6 in
    let tv2 := tv2 + tv5 in
    let tv2 := tv2 * tv3 in
    let tv6 := tv6 * tv4 in
    let tv5 := curve_b * tv6 in
    let tv2 := tv2 + tv5 in
    let x := tv1 * tv3 in
    let '(is_gx1_square, y1) := sqrt_ratio tv2 tv6 in
    let y := tv1 * u in
    let y := y * y1 in
    let x := sel x tv3 is_gx1_square in
    let y := sel y y1 is_gx1_square in
    let y := sel (t_neg T y) y (Bool.eqb (t_odd T u) (t_odd T y)) in
    do i <- of_opt (t_invert T tv4);
    Ok (x * i, y).

  (** hashtocurve.rs:24-39 *)
  Definition iso_map (x y : F) (k : list F) : res (F * F) :=
    let k i := nth i k (t_one T) in
    let x_squared := t_sq T x in
    let x_cubed := x_squared * x in
    let x_num := k 0%nat * x_cubed + k 1%nat * x_squared + k 2%nat * x + k 3%nat in
    let x_den := x_squared + k 4%nat * x + k 5%nat in
    do i <- of_opt (t_invert T x_den);
    let x_f0 := x_num * i in
    let y_num := k 6%nat * x_cubed + k 7%nat * x_squared + k 8%nat * x + k 9%nat in
    let y_den := x_cubed + k 10%nat * x_squared + k 11%nat * x + k 12%nat in
    do j <- of_opt (t_invert T y_den);
    let y_f0 := y * (y_num * j) in
    Ok (x_f0, y_f0).

  (** hashtocurve.rs:5-21 *)
  Definition hash_to_curve (u1 u2 curve_a curve_b z : F) (k : list F) : res ((F * F) * (F * F)) :=
    do q1 <- map_to_curve_simple_swu u1 curve_a curve_b z;
    do q2 <- map_to_curve_simple_swu u2 curve_a curve_b z;
    do p1 <- iso_map (fst q1) (snd q1) k;
    do p2 <- iso_map (fst q2) (snd q2) k;
    Ok (p1, p2).
End Generic.

(** field_secq.rs:209-244 with the operations of Limb.v *)
Definition secq_traits : traits fe := MkTraits fe
  (one SECQ) (add SECQ) (sub SECQ) (mul SECQ) (neg SECQ)
  Limb.eqb (fun a => Limb.eqb a zero) (is_odd SECQ) (secq_invert SECQ)
  (from_u64 SECQ) (pow_by_self SECQ) (fun a => pow_vartime SECQ a [2; 0; 0; 0])
  6
  (Fe 13822214165235122497 13451932020343611451 18446744073709551614 9079256848778919935 0)
  (Fe 14644223128245760257 1078510108991852875 80 0 0)
  (Fe 411004481505318880 12260033118033672328 40 0 0)
  (Fe 3136031371246777149 4130463083053389383 12279052256176627435 4106525493002347721 0)
  (Fe 18366461224604398165 46442091185214180 18426301622747497549 12927103485658657333 0).

(** field_secp.rs:213-246; only the tests use this instance.  [modinv] is the modular inverse
    of num-bigint-dig *)
Definition secp_traits (modinv : Z -> option Z) : traits fe := MkTraits fe
  (one SECP) (add SECP) (sub SECP) (mul SECP) (neg SECP)
  Limb.eqb (fun a => Limb.eqb a zero) (is_odd SECP) (invert SECP modinv)
  (from_u64 SECP) (pow_by_self SECP) (fun a => pow_vartime SECP a [2; 0; 0; 0])
  1
  (Fe 18446744069414583343 18446744073709551615 18446744073709551615 4611686018427387903 0)
  (one SECP) (one SECP)
  (Fe 18446744065119615070 18446744073709551615 18446744073709551615 18446744073709551615 0)
  (Fe 10660218062043021626 12685808213265501903 5194980534593283555 4353995932822220413 0).

(** affine.rs:97-122 *)
Definition iso_a : fe := Fe 13132896970247110882 16600479225705962415 2267171952686981219 10308142380130580469 0.
Definition iso_b : fe := Fe 18134843254882603861 9821735204204806823 2250 0 0.
Definition iso_z : fe := Fe 4419027667721769679 17311539568058655616 18446744073709551596 18446744073709551615 0.
(** affine.rs:124-205 *)
Definition iso_constants : list fe :=
  [from_raw SECQ 7679007869575068054 9522933797269734319 16397105843297379213 10248191152060862008;
   from_raw SECQ 9826996953646961554 15182850926035153421 14578491762904662818 12647934416601614380;
   from_raw SECQ 12837744973953074055 3022921441994356503 9226076221592167090 5322610924144458968;
   from_raw SECQ 7679007869575068113 9522933797269734319 16397105843297379213 10248191152060862008;
   from_raw SECQ 5509687591411919004 593833991126057235 2079217350175104065 3150945307157219731;
   from_raw SECQ 10055942181862970998 5902098865151897053 9296385024764340435 14583286435933530837;
   from_raw SECQ 1018159320366879645 7658288605871115257 17763531330238827481 9564978408590137874;
   from_raw SECQ 14136870513678256585 7591425463017576710 7289245881452331409 6323967208300807190;
   from_raw SECQ 14802773332216597422 16078857340678580677 3084372689655359971 1069495981486797935;
   from_raw SECQ 2553960894281893207 13252224180066972444 13664254869414482677 11614616639002310276;
   from_raw SECQ 17487903423972654314 10114123023543861660 12342198062117431905 4726417960735829596;
   from_raw SECQ 2523398215118668000 9249176628478019873 9442411000583469692 6856371160381489280;
   from_raw SECQ 13822214165235121741 13451932020343611451 18446744073709551614 18446744073709551615].

(** lib.rs:40-41 *)
Definition EQUATION_B : fe := Fe 13924965285611452217 16516940299852029533 8 0 0.
(** lib.rs:43-60 *)
Definition GENERATOR : fe * fe :=
  (Fe 10469571329630693389 10742150477581383480 16610251588214968909 7161385764161811800 0,
   Fe 12565599782544440070 11151484775266214907 5786122696412099978 14641184162808952937 0).

(** affine.rs:227-239: [EncodedPoint::from_affine_coordinates(x, y, false)] followed by
    [AffinePoint::decompress] of primeorder: the coordinates are read back from their
    big-endian bytes and the curve equation is checked (EQUATION_A is zero) *)
Definition from_coordinates (c : fe * fe) : option (fe * fe) :=
  match from_sec1 SECQ (to_be_bytes SECQ (fst c)), from_sec1 SECQ (to_be_bytes SECQ (snd c)) with
  | Some x, Some y =>
    if Limb.eqb (mul SECQ y y) (add SECQ (add SECQ (mul SECQ (mul SECQ x x) x) (mul SECQ zero x)) EQUATION_B)
    then Some (x, y) else None
  | _, _ => None
  end.

(** affine.rs:215-242.  The argument is the 128 bytes; [padd] is the addition of points in
    primeorder, a dependency *)
Definition from_uniform_bytes {G : Type} (padd : fe * fe -> fe * fe -> G) (bytes : list Z) : res G :=
  let u1 := from_bytes_wide SECQ (slice bytes 0 64) in
  let u2 := from_bytes_wide SECQ (slice bytes 64 128) in
  do c <- hash_to_curve secq_traits u1 u2 iso_a iso_b iso_z iso_constants;
  do p1 <- of_opt (from_coordinates (fst c));
  do p2 <- of_opt (from_coordinates (snd c));
  Ok (padd p1 p2).
