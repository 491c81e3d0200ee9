(** Model of the circom templates in /repo/packages/circuits for secp256k1
    arithmetic.

    A template is a function of its advice (the signals assigned with [<--],
    which a prover chooses freely) and its input signals.  It returns the output
    signals, or [None] when one of its [===] constraints is violated.  A signal
    assigned with [<==] is constrained to equal the assigned expression, so it is
    a [let].  Thus "every assignment of the signals satisfying the constraints"
    is "every advice for which the function returns [Some]", and the witness
    generator is one particular advice, given by the [h_] functions.

    circomlib is a dependency that is not part of /repo; the templates used from
    it (version 2.0.5) are modelled from their published source. *)
From Coq Require Import ZArith List Bool Arith.
From Verif Require Import Base Primes Field Zq.
Import ListNotations.
Local Open Scope fld_scope.

Notation "'let?' x ':=' e 'in' f" := (match e with Some x => f | None => None end)
  (at level 200, x pattern, e at level 100, f at level 200).
Notation "'constrain' a '===' b ; f" := (if feqb a b then f else None)
  (at level 200, a at level 60, b at level 60, f at level 200).

Section Gadgets.
  Context {K : Fld}.

  Definition cst2 : K := 1 + 1.
  Definition cst3 : K := 1 + 1 + 1.

  (** circomlib comparators.circom: IsZero.  advice: inv *)
  Definition is_zero (inv x : K) : option K :=
    let out := - x * inv + 1 in
    constrain (x * out) === 0;
    Some out.
  (** circomlib comparators.circom: IsEqual *)
  Definition is_equal (inv a b : K) : option K := is_zero inv (b - a).
  (** circomlib gates.circom: AND, OR *)
  Definition and_gate (a b : K) : K := a * b.
  Definition or_gate (a b : K) : K := a + b - a * b.

  (** circomlib mux1.circom: MultiMux1(2), one output *)
  Definition mux1 (c0 c1 s : K) : K := (c1 - c0) * s + c0.

  (** circomlib bitify.circom: Num2Bits(n).  advice: the bits *)
  Fixpoint lc (e2 : K) (bits : list K) : K :=
    match bits with [] => 0 | b :: t => b * e2 + lc (e2 + e2) t end.
  Definition is_bit (b : K) : bool := feqb (b * (b - 1)) 0.
  Definition num2bits (n : nat) (bits : list K) (x : K) : option (list K) :=
    if (length bits =? n)%nat then
      if forallb is_bit bits then
        constrain (lc 1 bits) === x;
        Some bits
      else None
    else None.
  (** circomlib bitify.circom: Bits2Num(n) *)
  Definition bits2num (bits : list K) : K := lc 1 bits.

  (** 1 << n, 2 ** n in the field *)
  Fixpoint two_pow (n : nat) : K := match n with O => 1 | S n' => two_pow n' + two_pow n' end.

  (** circomlib comparators.circom: LessThan(n), GreaterThan(n), GreaterEqThan(n).
      advice: the n+1 bits *)
  Definition less_than (n : nat) (bits : list K) (a b : K) : option K :=
    let? o := num2bits (S n) bits (a + two_pow n - b) in
    Some (1 - nth n o 0).
  Definition greater_than (n : nat) (bits : list K) (a b : K) : option K := less_than n bits b a.
  Definition greater_eq_than (n : nat) (bits : list K) (a b : K) : option K := less_than n bits b (a + 1).

  (** packages/circuits/eff_ecdsa_membership/secp256k1/add.circom:16-36
      (Secp256k1AddIncomplete).  advice: lambda *)
  Definition add_incomplete (lambda xP yP xQ yQ : K) : option (K * K) :=
    let dx := xP - xQ in
    let dy := yP - yQ in
    constrain (dx * lambda) === dy;
    let outX := lambda * lambda - xP - xQ in
    let outY := lambda * (xP - outX) - yP in
    Some (outX, outY).

  (** packages/circuits/eff_ecdsa_membership/secp256k1/double.circom:10-27
      (Secp256k1Double).  advice: lambda *)
  Definition double (lambda xP yP : K) : option (K * K) :=
    let xPSquared := xP * xP in
    constrain (lambda * cst2 * yP) === (cst3 * xPSquared);
    let outX := lambda * lambda - cst2 * xP in
    let outY := lambda * (xP - outX) - yP in
    Some (outX, outY).

  (** advice of Secp256k1AddComplete: the [inv] signals of its IsZero/IsEqual
      components and the two slopes *)
  Record ac_adv : Type := MkAc {
    ac_isXEqual : K; ac_isXpZero : K; ac_isXqZero : K; ac_isXEitherZero : K;
    ac_lambdaA : K; ac_lambdaB : K; ac_zeroizeA : K
  }.

  (** packages/circuits/eff_ecdsa_membership/secp256k1/add.circom:46-125
      (Secp256k1AddComplete) *)
  Definition add_complete (w : ac_adv) (xP yP xQ yQ : K) : option (K * K) :=
    let xPSquared := xP * xP in
    let? isXEqual := is_equal (ac_isXEqual w) xP xQ in
    let? isXpZero := is_zero (ac_isXpZero w) xP in
    let? isXqZero := is_zero (ac_isXqZero w) xQ in
    let? isXEitherZero := is_zero (ac_isXEitherZero w) ((1 - isXpZero) * (1 - isXqZero)) in
    let dx := xQ - xP in
    let dy := (yQ - yP) * (1 - isXEqual) in
    let lambdaA := ac_lambdaA w in
    constrain (dx * lambdaA) === dy;
    let lambdaB := ac_lambdaB w in
    constrain (lambdaB * cst2 * yP) === (cst3 * xPSquared);
    let lambda := lambdaB * isXEqual + lambdaA in
    let outAx := lambda * lambda - xP - xQ in
    let outAy := lambda * (xP - outAx) - yP in
    let outBx := outAx * (1 - isXEitherZero) in
    let outBy := outAy * (1 - isXEitherZero) in
    let outCx := isXpZero * xQ in
    let outCy := isXpZero * yQ in
    let outDx := isXqZero * xP in
    let outDy := isXqZero * yP in
    let? zeroizeA := is_equal (ac_zeroizeA w) isXEqual (1 - (yP + yQ)) in
    let zeroizeB := and_gate isXpZero isXqZero in
    let zeroize := or_gate zeroizeA zeroizeB in
    Some ((outBx + outCx + outDx) * (1 - zeroize), (outBy + outCy + outDy) * (1 - zeroize)).

  (** The witness generator.  [dv] is circom's field division; nothing is assumed
      about division by zero. *)
  Variable dv : K -> K -> K.
  (** inv <-- in!=0 ? 1/in : 0 *)
  Definition h_inv (x : K) : K := if feqb x 0 then 0 else dv 1 x.
  (** 1 when the argument is zero, 0 otherwise: the value of IsZero.out *)
  Definition h_isz (x : K) : K := - x * h_inv x + 1.
  (** add.circom:31 *)
  Definition h_add_incomplete (xP yP xQ yQ : K) : K := dv (yP - yQ) (xP - xQ).
  (** double.circom:22 *)
  Definition h_double (xP yP : K) : K := dv (cst3 * (xP * xP)) (cst2 * yP).
  (** add.circom:75 and 79 *)
  Definition h_add_complete (xP yP xQ yQ : K) : ac_adv :=
    let eq := h_isz (xQ - xP) in
    let zp := h_isz xP in
    let zq := h_isz xQ in
    MkAc (h_inv (xQ - xP)) (h_inv xP) (h_inv xQ) (h_inv ((1 - zp) * (1 - zq)))
      (dv (yQ - yP) (xQ - xP) * (1 - eq)) (dv (cst3 * (xP * xP)) (cst2 * yP))
      (h_inv (1 - (yP + yQ) - eq)).
End Gadgets.
Arguments ac_adv _ : clear implicits.

(** ** K() and Secp256k1Mul(), over the circuit field *)

(** mul.circom:117-122 *)
Definition kq : Z := 0xfffffffffffffffffffffffffffffffebaaedce6af48a03bbfd25e8cd0364141.
Definition tQ : Z := 115792089237316195423570985008687907852405143892509244725752742275123193348738.
Definition lo128 (x : Z) : Z := Z.land x (2 ^ 128 - 1).
Definition hi128 (x : Z) : Z := Z.shiftr x 128.
Definition qlo : Fp := fp (lo128 kq).
Definition qhi : Fp := fp (hi128 kq).
Definition tQlo : Fp := fp (lo128 tQ).
Definition tQhi : Fp := fp (hi128 tQ).

Record k_adv : Type := MkKadv {
  ka_slo : Fp; ka_shi : Fp;
  ka_inBits : list Fp; ka_alpha : list Fp; ka_beta : Fp; ka_gamma : list Fp; ka_theta : list Fp;
  ka_klo : list Fp; ka_khi : list Fp
}.

(** packages/circuits/eff_ecdsa_membership/secp256k1/mul.circom:110-190 (K) *)
Definition k_tmpl (w : k_adv) (s : Fp) : option (list Fp) :=
  let slo := ka_slo w in
  let shi := ka_shi w in
  let? inBits := num2bits 129 (ka_inBits w) (slo + tQlo) in
  let carry := nth 128 inBits 0 in
  let ahi := shi + tQhi + carry in
  let bhi := qhi in
  let alo := slo + tQlo - carry * two_pow 128 in
  let blo := qlo in
  let? alpha := greater_than 129 (ka_alpha w) ahi bhi in
  let? beta := is_equal (ka_beta w) ahi bhi in
  let? gamma := greater_eq_than 129 (ka_gamma w) alo blo in
  let betaANDgamma := and_gate beta gamma in
  let isQuotientOne := or_gate betaANDgamma alpha in
  let? theta := greater_than 129 (ka_theta w) qlo (slo + tQlo) in
  let borrow := and_gate theta isQuotientOne in
  let klo := (slo + tQlo + borrow * two_pow 128) - isQuotientOne * qlo in
  let khi := (shi + tQhi - borrow * 1) - isQuotientOne * qhi in
  let? kloBits := num2bits 256 (ka_klo w) klo in
  let? khiBits := num2bits 256 (ka_khi w) khi in
  Some (firstn 128 kloBits ++ firstn 128 khiBits).

Record mul_adv : Type := MkMadv {
  ma_k : k_adv;
  ma_acc0 : Fp;
  ma_inc : list (Fp * Fp);            (* PIncomplete[i], accIncomplete[i] *)
  ma_comp : list (ac_adv Fp * ac_adv Fp);   (* PComplete[i], accComplete[i] *)
  ma_out : ac_adv Fp
}.

(** mul.circom:37-64, one pass of the loop body at index [i] *)
Definition inc_step (kb : list Fp) (xP yP : Fp) (i : nat) (w : Fp * Fp) (acc : Fp * Fp) : option (Fp * Fp) :=
  let ys := if (i =? 0)%nat then - yP else (cst2 * nth (256 - i) kb 0 - 1) * yP in
  let? (px, py) := add_incomplete (fst w) xP ys (fst acc) (snd acc) in
  add_incomplete (snd w) (fst acc) (snd acc) px py.
Fixpoint inc_loop (kb : list Fp) (xP yP : Fp) (i : nat) (ws : list (Fp * Fp)) (acc : Fp * Fp) : option (Fp * Fp) :=
  match ws with
  | [] => Some acc
  | w :: ws => let? acc := inc_step kb xP yP i w acc in inc_loop kb xP yP (S i) ws acc
  end.
(** mul.circom:69-93, one pass of the loop body at index [i] *)
Definition comp_step (kb : list Fp) (xP yP : Fp) (i : nat) (w : ac_adv Fp * ac_adv Fp) (acc : Fp * Fp) : option (Fp * Fp) :=
  let? (px, py) := add_complete (fst w) xP ((cst2 * nth (3 - i) kb 0 - 1) * yP) (fst acc) (snd acc) in
  add_complete (snd w) (fst acc) (snd acc) px py.
Fixpoint comp_loop (kb : list Fp) (xP yP : Fp) (i : nat) (ws : list (ac_adv Fp * ac_adv Fp)) (acc : Fp * Fp) : option (Fp * Fp) :=
  match ws with
  | [] => Some acc
  | w :: ws => let? acc := comp_step kb xP yP i w acc in comp_loop kb xP yP (S i) ws acc
  end.

(** packages/circuits/eff_ecdsa_membership/secp256k1/mul.circom:19-103 (Secp256k1Mul) *)
Definition secp_mul (w : mul_adv) (scalar xP yP : Fp) : option (Fp * Fp) :=
  let? kb := k_tmpl (ma_k w) scalar in
  let? acc0 := double (ma_acc0 w) xP yP in
  if ((length (ma_inc w) =? 253) && (length (ma_comp w) =? 3))%nat then
    let? acc := inc_loop kb xP yP 0 (ma_inc w) acc0 in
    let? acc := comp_loop kb xP yP 0 (ma_comp w) acc in
    add_complete (ma_out w) (fst acc) (snd acc) ((1 - nth 0 kb 0) * xP) ((1 - nth 0 kb 0) * - yP)
  else None.

(** packages/circuits/eff_ecdsa_membership/eff_ecdsa.circom:13-39 (EfficientECDSA) *)
Definition eff_ecdsa (w : mul_adv * ac_adv Fp) (s Tx Ty Ux Uy : Fp) : option (Fp * Fp) :=
  let? (mx, my) := secp_mul (fst w) s Tx Ty in
  add_complete (snd w) mx my Ux Uy.

(** ** The witness generator of these templates *)

(** out[i] <-- (in >> i) & 1 *)
Definition h_bits (n : nat) (x : Fp) : list Fp :=
  map (fun i => fp (Z.land (Z.shiftr (zval x) (Z.of_nat i)) 1)) (seq 0 n).
(** the bit advice of LessThan(n) *)
Definition h_lt (n : nat) (a b : Fp) : list Fp := h_bits (S n) (a + two_pow n - b).
(** value of LessThan(n).out on that advice *)
Definition h_ltv (n : nat) (a b : Fp) : Fp := 1 - nth n (h_lt n a b) 0.

Section Honest.
  Variable dv : Fp -> Fp -> Fp.

  (** mul.circom:123-124 and the bit decompositions *)
  Definition h_k (s : Fp) : k_adv :=
    let slo := fp (lo128 (zval s)) in
    let shi := fp (hi128 (zval s)) in
    let carry := nth 128 (h_bits 129 (slo + tQlo)) 0 in
    let ahi := shi + tQhi + carry in
    let alo := slo + tQlo - carry * two_pow 128 in
    let alpha := h_ltv 129 qhi ahi in
    let beta := h_isz dv (qhi - ahi) in
    let gamma := h_ltv 129 qlo (alo + 1) in
    let isQ := or_gate (and_gate beta gamma) alpha in
    let theta := h_ltv 129 (slo + tQlo) qlo in
    let borrow := and_gate theta isQ in
    let klo := (slo + tQlo + borrow * two_pow 128) - isQ * qlo in
    let khi := (shi + tQhi - borrow * 1) - isQ * qhi in
    MkKadv slo shi (h_bits 129 (slo + tQlo)) (h_lt 129 qhi ahi) (h_inv dv (qhi - ahi))
      (h_lt 129 qlo (alo + 1)) (h_lt 129 (slo + tQlo) qlo) (h_bits 256 klo) (h_bits 256 khi).

  Definition get (o : option (Fp * Fp)) : Fp * Fp := match o with Some a => a | None => (0, 0) end.
  Definition h_inc_step (kb : list Fp) (xP yP : Fp) (i : nat) (acc : Fp * Fp) : Fp * Fp :=
    let ys := if (i =? 0)%nat then - yP else (cst2 * nth (256 - i) kb 0 - 1) * yP in
    let l1 := h_add_incomplete dv xP ys (fst acc) (snd acc) in
    let '(px, py) := get (add_incomplete l1 xP ys (fst acc) (snd acc)) in
    (l1, h_add_incomplete dv (fst acc) (snd acc) px py).
  Fixpoint h_inc (kb : list Fp) (xP yP : Fp) (i count : nat) (acc : Fp * Fp) : list (Fp * Fp) :=
    match count with
    | O => []
    | S c => let w := h_inc_step kb xP yP i acc in w :: h_inc kb xP yP (S i) c (get (inc_step kb xP yP i w acc))
    end.
  Definition h_comp_step (kb : list Fp) (xP yP : Fp) (i : nat) (acc : Fp * Fp) : ac_adv Fp * ac_adv Fp :=
    let ys := (cst2 * nth (3 - i) kb 0 - 1) * yP in
    let w1 := h_add_complete dv xP ys (fst acc) (snd acc) in
    let '(px, py) := get (add_complete w1 xP ys (fst acc) (snd acc)) in
    (w1, h_add_complete dv (fst acc) (snd acc) px py).
  Fixpoint h_comp (kb : list Fp) (xP yP : Fp) (i count : nat) (acc : Fp * Fp) : list (ac_adv Fp * ac_adv Fp) :=
    match count with
    | O => []
    | S c => let w := h_comp_step kb xP yP i acc in w :: h_comp kb xP yP (S i) c (get (comp_step kb xP yP i w acc))
    end.
  Definition h_mul (s xP yP : Fp) : mul_adv :=
    let kb := match k_tmpl (h_k s) s with Some kb => kb | None => [] end in
    let l0 := h_double dv xP yP in
    let acc0 := get (double l0 xP yP) in
    let wi := h_inc kb xP yP 0 253 acc0 in
    let acc1 := get (inc_loop kb xP yP 0 wi acc0) in
    let wc := h_comp kb xP yP 0 3 acc1 in
    let acc2 := get (comp_loop kb xP yP 0 wc acc1) in
    MkMadv (h_k s) l0 wi wc
      (h_add_complete dv (fst acc2) (snd acc2) ((1 - nth 0 kb 0) * xP) ((1 - nth 0 kb 0) * - yP)).
  Definition h_eff (s Tx Ty Ux Uy : Fp) : mul_adv * ac_adv Fp :=
    let wm := h_mul s Tx Ty in
    let '(mx, my) := get (secp_mul wm s Tx Ty) in
    (wm, h_add_complete dv mx my Ux Uy).
End Honest.
