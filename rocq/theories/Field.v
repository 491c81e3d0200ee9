(** Fields and modules over a field, as records.  The scalar type of the Spartan
    crate and the group secq256k1 are instances; the concrete field Z/q is built
    in [Zq.v]. *)
From Coq Require Import List Arith Lia Bool Field Ring.
Import ListNotations.

Record Fld : Type := MkFld {
  carrier :> Type;
  f0 : carrier;
  f1 : carrier;
  fadd : carrier -> carrier -> carrier;
  fmul : carrier -> carrier -> carrier;
  fsub : carrier -> carrier -> carrier;
  fopp : carrier -> carrier;
  fdiv : carrier -> carrier -> carrier;
  finv : carrier -> carrier;
  fth : field_theory f0 f1 fadd fmul fsub fopp fdiv finv (@eq carrier);
  finv0 : finv f0 = f0;
  feqb : carrier -> carrier -> bool;
  feqb_spec : forall x y, reflect (x = y) (feqb x y)
}.

Declare Scope fld_scope.
Delimit Scope fld_scope with fld.
Arguments f0 {_}.
Arguments f1 {_}.
Arguments fadd {_} _ _.
Arguments fmul {_} _ _.
Arguments fsub {_} _ _.
Arguments fopp {_} _.
Arguments fdiv {_} _ _.
Arguments finv {_} _.
Arguments feqb {_} _ _.
Notation "0" := f0 : fld_scope.
Notation "1" := f1 : fld_scope.
Notation "x + y" := (fadd x y) : fld_scope.
Notation "x * y" := (fmul x y) : fld_scope.
Notation "x - y" := (fsub x y) : fld_scope.
Notation "- x" := (fopp x) : fld_scope.
Notation "x / y" := (fdiv x y) : fld_scope.

(** A module over the field (the group of the commitment scheme, written
    additively). *)
Record Mod (K : Fld) : Type := MkMod {
  gcar :> Type;
  g0 : gcar;
  gadd : gcar -> gcar -> gcar;
  gopp : gcar -> gcar;
  gmul : K -> gcar -> gcar;
  gadd_assoc : forall a b c, gadd a (gadd b c) = gadd (gadd a b) c;
  gadd_comm : forall a b, gadd a b = gadd b a;
  gadd_0_l : forall a, gadd g0 a = a;
  gadd_opp : forall a, gadd a (gopp a) = g0;
  gmul_add_r : forall x a b, gmul x (gadd a b) = gadd (gmul x a) (gmul x b);
  gmul_add_l : forall x y a, gmul (fadd x y) a = gadd (gmul x a) (gmul y a);
  gmul_mul : forall x y a, gmul (fmul x y) a = gmul x (gmul y a);
  gmul_1 : forall a, gmul f1 a = a;
  geqb : gcar -> gcar -> bool;
  geqb_spec : forall a b, reflect (a = b) (geqb a b)
}.
Arguments MkMod {K} _ _ _ _ _ _ _ _ _ _ _ _ _ _.
Arguments gcar {_} _.
Arguments g0 {_ _}.
Arguments gadd {_ _} _ _.
Arguments gopp {_ _} _.
Arguments gmul {_ _} _ _.
Arguments geqb {_ _} _ _.

Section FieldFacts.
  Variable K : Fld.
  Local Open Scope fld_scope.
  Add Field Kf : (fth K).

  Lemma f1_neq_0 : (1 : K) <> 0.
  Proof. exact (F_1_neq_0 (fth K)). Qed.

  Lemma finv_l (x : K) : x <> 0 -> finv x * x = 1.
  Proof. intro H. exact (Finv_l (fth K) x H). Qed.

  Lemma finv_r (x : K) : x <> 0 -> x * finv x = 1.
  Proof. intro H. field. exact H. Qed.

  Lemma fmul_eq_0 (x y : K) : x * y = 0 -> x = 0 \/ y = 0.
  Proof.
    intro H. destruct (feqb_spec K x 0) as [E|E]; [left; exact E|right].
    transitivity (finv x * (x * y)); [field; exact E|rewrite H; ring].
  Qed.

  Lemma fmul_neq_0 (x y : K) : x <> 0 -> y <> 0 -> x * y <> 0.
  Proof. intros Hx Hy H. apply fmul_eq_0 in H. tauto. Qed.

  Lemma fsub_eq_0 (x y : K) : x - y = 0 <-> x = y.
  Proof.
    split; intro H.
    - transitivity ((x - y) + y); [ring|rewrite H; ring].
    - rewrite H. ring.
  Qed.

  Lemma fmul_cancel_l (a x y : K) : a <> 0 -> a * x = a * y -> x = y.
  Proof.
    intros Ha H. transitivity (finv a * (a * x)); [field; exact Ha|].
    rewrite H. field. exact Ha.
  Qed.

  Lemma finv_neq_0 (x : K) : x <> 0 -> finv x <> 0.
  Proof.
    intros Hx H. apply f1_neq_0. rewrite <- (finv_l x Hx), H. ring.
  Qed.

  Lemma feqb_true (x y : K) : feqb x y = true <-> x = y.
  Proof. destruct (feqb_spec K x y); split; congruence. Qed.
  Lemma feqb_refl (x : K) : feqb x x = true.
  Proof. apply feqb_true. reflexivity. Qed.
End FieldFacts.

Section ModFacts.
  Context {K : Fld}.
  Variable G : Mod K.
  Local Open Scope fld_scope.
  Add Field Kf2 : (fth K).

  Lemma gadd_0_r (a : G) : gadd a g0 = a.
  Proof. rewrite gadd_comm. apply gadd_0_l. Qed.

  Lemma gadd_cancel_l (a b c : G) : gadd a b = gadd a c -> b = c.
  Proof.
    intro H. rewrite <- (gadd_0_l K G b), <- (gadd_0_l K G c).
    rewrite <- (gadd_opp K G a), (gadd_comm K G a (gopp a)).
    rewrite <- !gadd_assoc, H. reflexivity.
  Qed.

  Lemma gmul_0_l (a : G) : gmul 0 a = g0.
  Proof.
    apply (gadd_cancel_l (gmul 0 a)). rewrite <- gmul_add_l, gadd_0_r.
    f_equal. ring.
  Qed.

  Lemma gmul_0_r (x : K) : gmul x (g0 : G) = g0.
  Proof.
    apply (gadd_cancel_l (gmul x g0)). rewrite <- gmul_add_r, !gadd_0_r.
    reflexivity.
  Qed.

  Lemma gopp_mul (a : G) : gopp a = gmul (- (1)) a.
  Proof.
    apply (gadd_cancel_l a). rewrite gadd_opp.
    rewrite <- (gmul_1 K G a) at 1. rewrite <- gmul_add_l.
    replace (1 + - (1)) with (0 : K) by ring. rewrite gmul_0_l. reflexivity.
  Qed.

  Lemma gadd_swap (a b c d : G) : gadd (gadd a b) (gadd c d) = gadd (gadd a c) (gadd b d).
  Proof.
    rewrite <- !gadd_assoc. f_equal. rewrite !gadd_assoc. f_equal. apply gadd_comm.
  Qed.

  Lemma geqb_true (a b : G) : geqb a b = true <-> a = b.
  Proof. destruct (geqb_spec K G a b); split; congruence. Qed.
  Lemma geqb_refl (a : G) : geqb a a = true.
  Proof. apply geqb_true. reflexivity. Qed.
End ModFacts.

(** A reflexive tactic for linear identities in a module: [module_eq] reduces an
    equation between linear combinations to one field equation per atom. *)
Inductive mexp (A : Type) : Type :=
| MAtom (n : nat) | MZero | MAdd (a b : mexp A) | MOpp (a : mexp A) | MMul (x : A) (a : mexp A).
Arguments MAtom {A} n.
Arguments MZero {A}.
Arguments MAdd {A} a b.
Arguments MOpp {A} a.
Arguments MMul {A} x a.

Section ModTac.
  Context {K : Fld}.
  Variable G : Mod K.
  Add Field Kf4 : (fth K).
  Fixpoint mden (env : list G) (e : mexp K) : G :=
    match e with
    | MAtom n => nth n env g0
    | MZero => g0
    | MAdd a b => gadd (mden env a) (mden env b)
    | MOpp a => gopp (mden env a)
    | MMul x a => gmul x (mden env a)
    end.
  Fixpoint mcoef (e : mexp K) (i : nat) : K :=
    match e with
    | MAtom n => if Nat.eqb n i then f1 else f0
    | MZero => f0
    | MAdd a b => fadd (mcoef a i) (mcoef b i)
    | MOpp a => fopp (mcoef a i)
    | MMul x a => fmul x (mcoef a i)
    end.
  Fixpoint mlin (env : list G) (c : nat -> K) : G :=
    match env with
    | [] => g0
    | g :: t => gadd (gmul (c 0) g) (mlin t (fun i => c (S i)))
    end.
  Lemma mlin_ext env : forall c d, (forall i, i < length env -> c i = d i) -> mlin env c = mlin env d.
  Proof.
    induction env as [|g t IH]; intros c d H; simpl; [reflexivity|].
    rewrite (H 0) by (simpl; lia). f_equal. apply IH. intros i Hi. apply H. simpl; lia.
  Qed.
  Lemma mlin_0 env : mlin env (fun _ => f0) = g0.
  Proof. induction env as [|g t IH]; simpl; [reflexivity|]. rewrite IH, gmul_0_l, gadd_0_l. reflexivity. Qed.
  Lemma mlin_add env : forall c d, mlin env (fun i => fadd (c i) (d i)) = gadd (mlin env c) (mlin env d).
  Proof.
    induction env as [|g t IH]; intros c d; simpl; [rewrite gadd_0_l; reflexivity|].
    rewrite IH, gmul_add_l. apply gadd_swap.
  Qed.
  Lemma mlin_mul env x : forall c, mlin env (fun i => fmul x (c i)) = gmul x (mlin env c).
  Proof.
    induction env as [|g t IH]; intros c; simpl; [rewrite gmul_0_r; reflexivity|].
    rewrite IH, gmul_mul, gmul_add_r. reflexivity.
  Qed.
  Lemma mlin_atom env : forall n, mlin env (fun i => if Nat.eqb n i then f1 else f0) = nth n env g0.
  Proof.
    induction env as [|g t IH]; intros n; simpl; [destruct n; reflexivity|].
    destruct n as [|n]; simpl.
    - rewrite mlin_0, gmul_1, gadd_0_r. reflexivity.
    - rewrite IH, gmul_0_l, gadd_0_l. reflexivity.
  Qed.
  Lemma mden_mlin env e : mden env e = mlin env (mcoef e).
  Proof.
    induction e as [n| |a IHa b IHb|a IHa|x a IHa]; simpl.
    - symmetry. apply mlin_atom.
    - symmetry. apply mlin_0.
    - rewrite IHa, IHb. symmetry. apply mlin_add.
    - rewrite IHa, gopp_mul, <- mlin_mul. apply mlin_ext. intros; ring.
    - rewrite IHa. symmetry. apply mlin_mul.
  Qed.
  Lemma mden_eq env a b :
    (forall i, i < length env -> mcoef a i = mcoef b i) -> mden env a = mden env b.
  Proof. intro H. rewrite !mden_mlin. apply mlin_ext, H. Qed.
  Fixpoint mcond (k : nat) (start : nat) (a b : mexp K) : Prop :=
    match k with
    | O => True
    | S k' => mcoef a start = mcoef b start /\ mcond k' (S start) a b
    end.
  Lemma mcond_ok k : forall s a b, mcond k s a b -> forall i, s <= i -> i < s + k -> mcoef a i = mcoef b i.
  Proof.
    induction k as [|k IH]; intros s a b H i H1 H2; [lia|].
    destruct H as [H0 H]. destruct (Nat.eq_dec i s) as [->|E]; [exact H0|].
    apply (IH (S s)); [exact H|lia|lia].
  Qed.
  Lemma mden_cond env a b : mcond (length env) 0 a b -> mden env a = mden env b.
  Proof. intro H. apply mden_eq. intros i Hi. apply (mcond_ok _ _ _ _ H); lia. Qed.
End ModTac.

Ltac m_find x l :=
  lazymatch l with
  | nil => constr:(@None nat)
  | x :: _ => constr:(Some O)
  | _ :: ?t => let r := m_find x t in
      lazymatch r with Some ?n => constr:(Some (S n)) | None => constr:(@None nat) end
  end.
Ltac m_atoms t env :=
  lazymatch t with
  | gadd ?a ?b => let e := m_atoms a env in m_atoms b e
  | gopp ?a => m_atoms a env
  | gmul ?x ?a => m_atoms a env
  | g0 => env
  | _ => let r := m_find t env in
      lazymatch r with Some _ => env | None => constr:(t :: env) end
  end.
Ltac m_reify K t env :=
  lazymatch t with
  | gadd ?a ?b => let x := m_reify K a env in let y := m_reify K b env in constr:(@MAdd K x y)
  | gopp ?a => let x := m_reify K a env in constr:(@MOpp K x)
  | gmul ?c ?a => let x := m_reify K a env in constr:(@MMul K c x)
  | g0 => constr:(@MZero K)
  | _ => let r := m_find t env in
      lazymatch r with Some ?n => constr:(@MAtom K n) end
  end.
(** leaves one goal [coefficient = coefficient] per atom *)
Ltac module_red :=
  lazymatch goal with
  | |- @eq (@gcar ?K ?G) ?a ?b =>
      let env := m_atoms a (@nil (@gcar K G)) in
      let env := m_atoms b env in
      let x := m_reify K a env in
      let y := m_reify K b env in
      change (@mden K G env x = @mden K G env y);
      apply mden_cond; cbn [mcond length mcoef Nat.eqb];
      repeat match goal with |- _ /\ _ => split end; try exact I
  end.

(** Every field is a module over itself; used to show that statements that
    quantify over a module are not vacuous. *)
Section SelfMod.
  Variable K : Fld.
  Add Field Kf3 : (fth K).
  Definition self_mod : Mod K.
  Proof.
    refine (MkMod (carrier K) f0 fadd fopp fmul _ _ _ _ _ _ _ _ feqb (feqb_spec K));
      intros; ring.
  Defined.
End SelfMod.

Section ModTacTest.
  Context {K : Fld} (G : Mod K).
  Add Field Kf5 : (fth K).
  Local Open Scope fld_scope.
  Goal forall (x y : K) (a b : G), x <> 0 ->
    gadd (gmul x (gadd a b)) (gmul (y / x) a) = gadd (gmul x b) (gmul (x + y * finv x) a).
  Proof. intros. module_red; field; assumption. Qed.
End ModTacTest.
