(** The concrete prime field Z/q with computable operations. *)
From Coq Require Import ZArith Znumtheory Lia Bool Eqdep_dec Field Zpow_facts.
From Verif Require Import Base Fermat Field Primes.
Local Open Scope Z_scope.

Record zq (q : Z) : Type := MkZq {
  zval : Z;
  zok : ((0 <=? zval) && (zval <? q))%bool = true
}.
Arguments zval {q} _.
Arguments zok {q} _.

Lemma zq_eq q (x y : zq q) : zval x = zval y -> x = y.
Proof.
  destruct x as [a Ha], y as [b Hb]; simpl; intros ->.
  f_equal. apply UIP_dec. apply bool_dec.
Qed.

Lemma zval_range q (x : zq q) : 0 <= zval x < q.
Proof. destruct x as [a Ha]; simpl. apply andb_prop in Ha. lia. Qed.

Lemma mod_ok q a : 1 < q -> ((0 <=? a mod q) && (a mod q <? q))%bool = true.
Proof.
  intro H. pose proof (Z.mod_pos_bound a q ltac:(lia)) as [H1 H2].
  apply andb_true_intro. split; [apply Z.leb_le|apply Z.ltb_lt]; assumption.
Qed.

Section Zq.
  Variable q : Z.
  Hypothesis Hq : prime q.

  Lemma q_gt1 : 1 < q.
  Proof. destruct Hq. assumption. Qed.

  Definition zof (a : Z) : zq q := MkZq q (a mod q) (mod_ok q a q_gt1).
  Definition zadd (x y : zq q) := zof (zval x + zval y).
  Definition zmul (x y : zq q) := zof (zval x * zval y).
  Definition zsub (x y : zq q) := zof (zval x - zval y).
  Definition zopp (x : zq q) := zof (- zval x).

  (** extended Euclid; its result is checked before use *)
  Fixpoint egcd (fuel : nat) (r0 r1 t0 t1 : Z) : Z :=
    match fuel with
    | O => t0
    | S f => if r1 =? 0 then t0 else
        let k := r0 / r1 in egcd f r1 (r0 - k * r1) t1 (t0 - k * t1)
    end.
  Definition zinv_raw (a : Z) : Z :=
    let c := egcd 800 q a 0 1 mod q in
    if (a * c) mod q =? 1 then c else powm q a (q - 2).
  Definition zinv (x : zq q) : zq q :=
    if zval x =? 0 then zof 0 else zof (zinv_raw (zval x)).
  Definition zdiv (x y : zq q) := zmul x (zinv y).
  Definition zeqb (x y : zq q) := zval x =? zval y.

  Lemma zval_zof a : zval (zof a) = a mod q.
  Proof. reflexivity. Qed.

  Lemma zof_zval (x : zq q) : zof (zval x) = x.
  Proof. apply zq_eq. simpl. apply Z.mod_small, zval_range. Qed.

  Lemma zof_mod a : zof (a mod q) = zof a.
  Proof. apply zq_eq. simpl. apply Zmod_mod. Qed.

  Lemma zof_eq a b : a mod q = b mod q <-> zof a = zof b.
  Proof. split; intro H; [apply zq_eq; exact H|]. apply (f_equal zval) in H. exact H. Qed.

  Lemma zof_add a b : zadd (zof a) (zof b) = zof (a + b).
  Proof. apply zq_eq. simpl. rewrite <- Zplus_mod. reflexivity. Qed.
  Lemma zof_mul a b : zmul (zof a) (zof b) = zof (a * b).
  Proof. apply zq_eq. simpl. rewrite <- Zmult_mod. reflexivity. Qed.
  Lemma zof_sub a b : zsub (zof a) (zof b) = zof (a - b).
  Proof. apply zq_eq. simpl. rewrite <- Zminus_mod. reflexivity. Qed.
  Lemma zof_opp a : zopp (zof a) = zof (- a).
  Proof.
    apply zq_eq. simpl. rewrite <- !Z.sub_0_l.
    rewrite Zminus_mod, Zmod_mod, <- Zminus_mod. reflexivity.
  Qed.

  Lemma zinv_raw_ok a : 0 < a < q -> (a * zinv_raw a) mod q = 1.
  Proof.
    intro Ha. unfold zinv_raw.
    set (c := egcd 800 q a 0 1 mod q).
    destruct (Z.eqb_spec ((a * c) mod q) 1) as [E|E]; [exact E|].
    assert (H1 := q_gt1).
    rewrite powm_ok by lia.
    rewrite Zmult_mod_idemp_r.
    replace (a * a ^ (q - 2)) with (a ^ (q - 1)).
    - apply fermat_Z1; [exact Hq|]. intro D. apply Z.divide_pos_le in D; lia.
    - replace (q - 1) with (Z.succ (q - 2)) by lia. rewrite Z.pow_succ_r by lia. reflexivity.
  Qed.

  Lemma zq_field : field_theory (zof 0) (zof 1) zadd zmul zsub zopp zdiv zinv eq.
  Proof.
    constructor.
    - constructor; intros;
        repeat match goal with x : zq q |- _ => rewrite <- (zof_zval x); generalize (zval x); clear x; intro x end;
        rewrite ?zof_opp, ?zof_add, ?zof_mul, ?zof_sub, ?zof_add, ?zof_mul; f_equal; ring.
    - intro H. apply (f_equal zval) in H. simpl in H.
      assert (H1 := q_gt1). rewrite Z.mod_1_l, Z.mod_0_l in H by lia. lia.
    - intros; reflexivity.
    - intros x H. unfold zinv. destruct (Z.eqb_spec (zval x) 0) as [E|E].
      + exfalso. apply H. rewrite <- (zof_zval x), E. reflexivity.
      + apply zq_eq. simpl. rewrite Zmult_mod_idemp_l, Z.mul_comm.
        pose proof (zval_range q x). assert (H1 := q_gt1).
        rewrite zinv_raw_ok by lia. rewrite Z.mod_1_l; lia.
  Qed.

  Lemma zeqb_spec (x y : zq q) : reflect (x = y) (zeqb x y).
  Proof.
    unfold zeqb. destruct (Z.eqb_spec (zval x) (zval y)) as [E|E]; constructor.
    - apply zq_eq, E.
    - intro H. apply E. rewrite H. reflexivity.
  Qed.

  Definition ZqF : Fld :=
    MkFld (zq q) (zof 0) (zof 1) zadd zmul zsub zopp zdiv zinv zq_field eq_refl zeqb zeqb_spec.
End Zq.

(** The two fields of the code base.  [p] is the order of the secq256k1 group and
    the base field of secp256k1; [n] the other way round. *)
Definition Fp : Fld := ZqF p prime_p.
Definition Fn : Fld := ZqF n prime_n.
Definition fp (a : Z) : Fp := zof p prime_p a.
Definition fn (a : Z) : Fn := zof n prime_n a.

(** equality of computed values, for examples *)
Ltac zqs := vm_compute; repeat split;
  repeat match goal with
  | |- Ok _ = Ok _ => apply f_equal
  | |- Some _ = Some _ => apply f_equal
  | |- (_, _) = (_, _) => apply f_equal2
  | |- (_ :: _)%list = (_ :: _)%list => apply f_equal2
  | |- nil = nil => reflexivity
  | |- @eq (zq _) _ _ => apply zq_eq; reflexivity
  | |- _ = _ => reflexivity
  end.
