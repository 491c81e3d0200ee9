(** Generic functions respect relations between implementations of the traits. *)
From Coq Require Import ZArith List Bool.
From Verif Require Import Base HashModel.
Import ListNotations.
Local Open Scope Z_scope.

Section Param.
Context {F1 F2 : Type}.
Variables (TS : traits F1) (TF : traits F2) (rel : F1 -> F2 -> Prop).
Definition relo (a : option F1) (x : option F2) : Prop :=
  match a, x with Some a, Some x => rel a x | None, None => True | _, _ => False end.
Definition relr (a : res (F1 * F1)) (x : res (F2 * F2)) : Prop :=
  match a, x with
  | Ok a, Ok x => rel (fst a) (fst x) /\ rel (snd a) (snd x)
  | Panic, Panic => True
  | _, _ => False
  end.
Record resp : Prop := MkResp {
  T_add : forall a b x y, rel a x -> rel b y -> rel (t_add TS a b) (t_add TF x y);
  T_sub : forall a b x y, rel a x -> rel b y -> rel (t_sub TS a b) (t_sub TF x y);
  T_mul : forall a b x y, rel a x -> rel b y -> rel (t_mul TS a b) (t_mul TF x y);
  T_pow : forall a b x y, rel a x -> rel b y -> rel (t_pow TS a b) (t_pow TF x y);
  T_neg : forall a x, rel a x -> rel (t_neg TS a) (t_neg TF x);
  T_sq : forall a x, rel a x -> rel (t_sq TS a) (t_sq TF x);
  T_one : rel (t_one TS) (t_one TF);
  T_from : forall v, 0 <= v < 2 ^ 64 -> rel (t_from TS v) (t_from TF v);
  T_eq : forall a b x y, rel a x -> rel b y -> t_eq TS a b = t_eq TF x y;
  T_zero : forall a x, rel a x -> t_zero TS a = t_zero TF x;
  T_odd : forall a x, rel a x -> t_odd TS a = t_odd TF x;
  T_invert : forall a x, rel a x -> relo (t_invert TS a) (t_invert TF x);
  T_C1 : C1 TF = C1 TS;
  T_C1s : Z.of_nat (C1 TS) < 2 ^ 32;
  T_C3 : rel (C3 TS) (C3 TF);
  T_C4 : rel (C4 TS) (C4 TF);
  T_C5 : rel (C5 TS) (C5 TF);
  T_C6 : rel (C6 TS) (C6 TF);
  T_C7 : rel (C7 TS) (C7 TF)
}.
Hypothesis HR : resp.
Lemma R_sel a b x y c : rel a x -> rel b y -> rel (sel a b c) (sel x y c).
Proof. destruct c; auto. Qed.
Create HintDb hrel.
Let L_add := T_add HR.
Let L_sub := T_sub HR.
Let L_mul := T_mul HR.
Let L_pow := T_pow HR.
Let L_neg := T_neg HR.
Let L_sq := T_sq HR.
Let L_one := T_one HR.
Let L_C3 := T_C3 HR.
Let L_C4 := T_C4 HR.
Let L_C5 := T_C5 HR.
Let L_C6 := T_C6 HR.
Let L_C7 := T_C7 HR.
#[local] Hint Resolve R_sel L_add L_sub L_mul L_pow L_neg L_sq L_one L_C3 L_C4 L_C5 L_C6 L_C7 : hrel.
Lemma T_from2 : rel (t_from TS 2) (t_from TF 2). Proof. apply (T_from HR). split; [discriminate|reflexivity]. Qed.
#[local] Hint Resolve T_from2 : hrel.

Lemma R_step i st st' : 0 <= Z.of_nat i < 2 ^ 64 ->
  rel (fst (fst st)) (fst (fst st')) -> rel (snd (fst st)) (snd (fst st')) -> rel (snd st) (snd st') ->
  let a := sr_step TS st i in let b := sr_step TF st' i in
  rel (fst (fst a)) (fst (fst b)) /\ rel (snd (fst a)) (snd (fst b)) /\ rel (snd a) (snd b).
Proof.
  destruct st as [[t1 t3] t4], st' as [[t1' t3'] t4']. cbn [fst snd]. intros Hi H1 H3 H4. cbv zeta. unfold sr_step. cbv zeta.
  assert (Ti := T_from HR _ Hi).
  rewrite (T_eq HR (t_pow TS t4 (t_pow TS (t_from TS 2) (t_sub TS (t_from TS (Z.of_nat i)) (t_from TS 2)))) (t_one TS)
                (t_pow TF t4' (t_pow TF (t_from TF 2) (t_sub TF (t_from TF (Z.of_nat i)) (t_from TF 2)))) (t_one TF)) by auto with hrel.
  cbn [fst snd]. auto 10 with hrel.
Qed.
Lemma R_loop l : Forall (fun i => 0 <= Z.of_nat i < 2 ^ 64) l -> forall st st',
  rel (fst (fst st)) (fst (fst st')) -> rel (snd (fst st)) (snd (fst st')) -> rel (snd st) (snd st') ->
  rel (snd (fst (fold_left (sr_step TS) l st))) (snd (fst (fold_left (sr_step TF) l st'))).
Proof.
  induction 1 as [|i l Hi _ IH]; intros st st' H1 H2 H3; cbn [fold_left]; [exact H2|].
  destruct (R_step i st st' Hi H1 H2 H3) as (A & B & C). apply IH; assumption.
Qed.
Lemma idx_ok : Forall (fun i => 0 <= Z.of_nat i < 2 ^ 64) (rev (seq 2 (C1 TS - 1))).
Proof.
  apply Forall_forall. intros i Hi. apply in_rev, in_seq in Hi. pose proof (T_C1s HR).
  change (2 ^ 32) with 4294967296 in *. change (2 ^ 64) with 18446744073709551616. Lia.lia.
Qed.
Lemma R_ratio u v x y : rel u x -> rel v y ->
  fst (sqrt_ratio TS u v) = fst (sqrt_ratio TF x y) /\ rel (snd (sqrt_ratio TS u v)) (snd (sqrt_ratio TF x y)).
Proof.
  intros Hu Hv. unfold sqrt_ratio. cbv zeta.
  set (a2 := t_pow TS v (C4 TS)). set (b2 := t_pow TF y (C4 TF)). assert (H2 : rel a2 b2) by (unfold a2, b2; auto with hrel).
  clearbody a2 b2.
  set (a5 := t_mul TS (t_pow TS (t_mul TS u (t_mul TS (t_pow TS a2 (t_from TS 2)) v)) (C3 TS)) a2).
  set (b5 := t_mul TF (t_pow TF (t_mul TF x (t_mul TF (t_pow TF b2 (t_from TF 2)) y)) (C3 TF)) b2).
  assert (H5 : rel a5 b5) by (unfold a5, b5; auto 8 with hrel). clearbody a5 b5.
  set (a3 := t_mul TS a5 u). set (b3 := t_mul TF b5 x). assert (H3 : rel a3 b3) by (unfold a3, b3; auto with hrel).
  set (a4 := t_mul TS a3 (t_mul TS a5 v)). set (b4 := t_mul TF b3 (t_mul TF b5 y)).
  assert (H4 : rel a4 b4) by (unfold a4, b4; auto with hrel). clearbody a4 b4. clearbody a3 b3.
  rewrite (T_eq HR (t_pow TS a4 (C5 TS)) (t_one TS) (t_pow TF b4 (C5 TF)) (t_one TF)) by auto with hrel.
  set (q := t_eq TF (t_pow TF b4 (C5 TF)) (t_one TF)). clearbody q.
  rewrite (T_C1 HR). generalize idx_ok. generalize (rev (seq 2 (C1 TS - 1))). intros l Hl.
  pose proof (R_loop l Hl
    (C6 TS, sel (t_mul TS a3 (C7 TS)) a3 q, sel (t_mul TS a4 (C6 TS)) a4 q)
    (C6 TF, sel (t_mul TF b3 (C7 TF)) b3 q, sel (t_mul TF b4 (C6 TF)) b4 q)) as L.
  cbn [fst snd] in L.
  destruct (fold_left (sr_step TS) _ _) as [[r1 r3] r4]. destruct (fold_left (sr_step TF) _ _) as [[s1 s3] s4].
  cbn [fst snd] in *. split; [reflexivity|]. apply L; auto with hrel.
Qed.

Variables (ia ib iz : F1) (ja jb jz : F2) (ik : list F1) (jk : list F2).
Hypotheses (Ra : rel ia ja) (Rb : rel ib jb) (Rz : rel iz jz) (Rk : Forall2 rel ik jk).
#[local] Hint Resolve Ra Rb Rz : hrel.

Lemma R_swu u x : rel u x -> relr (map_to_curve_simple_swu TS u ia ib iz) (map_to_curve_simple_swu TF x ja jb jz).
Proof.
  intro Hu. unfold map_to_curve_simple_swu. cbv zeta.
  set (a1 := t_mul TS iz (t_mul TS u u)). set (b1 := t_mul TF jz (t_mul TF x x)).
  assert (H1 : rel a1 b1) by (unfold a1, b1; auto with hrel). clearbody a1 b1.
  set (a2 := t_add TS (t_mul TS a1 a1) a1). set (b2 := t_add TF (t_mul TF b1 b1) b1).
  assert (H2 : rel a2 b2) by (unfold a2, b2; auto with hrel). clearbody a2 b2.
  rewrite (T_zero HR a2 b2 H2).
  set (a3 := t_mul TS ib (t_add TS a2 (t_one TS))). set (b3 := t_mul TF jb (t_add TF b2 (t_one TF))).
  assert (H3 : rel a3 b3) by (unfold a3, b3; auto with hrel). clearbody a3 b3.
  set (a4 := t_mul TS ia (sel iz (t_neg TS a2) (negb (t_zero TF b2)))).
  set (b4 := t_mul TF ja (sel jz (t_neg TF b2) (negb (t_zero TF b2)))).
  assert (H4 : rel a4 b4) by (unfold a4, b4; auto with hrel). clearbody a4 b4.
  set (a6 := t_mul TS (t_mul TS a4 a4) a4). set (b6 := t_mul TF (t_mul TF b4 b4) b4).
  assert (H6 : rel a6 b6) by (unfold a6, b6; auto with hrel).
  set (an := t_add TS (t_mul TS (t_add TS (t_mul TS a3 a3) (t_mul TS ia (t_mul TS a4 a4))) a3) (t_mul TS ib a6)).
  set (bn := t_add TF (t_mul TF (t_add TF (t_mul TF b3 b3) (t_mul TF ja (t_mul TF b4 b4))) b3) (t_mul TF jb b6)).
  assert (Hn : rel an bn) by (unfold an, bn; auto 8 with hrel). clearbody an bn. clearbody a6 b6.
  pose proof (R_ratio an a6 bn b6 Hn H6) as [E HY].
  destruct (sqrt_ratio TS an a6) as [q y1], (sqrt_ratio TF bn b6) as [q' z1]. cbn [fst snd] in E, HY. subst q'.
  set (ay := sel (t_mul TS (t_mul TS a1 u) y1) y1 q). set (by_ := sel (t_mul TF (t_mul TF b1 x) z1) z1 q).
  assert (Hy : rel ay by_) by (unfold ay, by_; auto with hrel). clearbody ay by_.
  rewrite (T_odd HR _ _ Hu), (T_odd HR _ _ Hy).
  pose proof (T_invert HR _ _ H4) as HI.
  destruct (t_invert TS a4) as [i|], (t_invert TF b4) as [j|]; cbn [relo] in HI; try contradiction; cbn [of_opt bind relr]; [|exact I].
  cbn [fst snd]. auto 8 with hrel.
Qed.

Lemma nth_rel l m d e i : Forall2 rel l m -> rel d e -> rel (nth i l d) (nth i m e).
Proof. intros H Hd. revert i. induction H as [|u v l m H _ IH]; intros [|i]; cbn [nth]; auto. Qed.
Lemma R_iso a b x y : rel a x -> rel b y -> relr (iso_map TS a b ik) (iso_map TF x y jk).
Proof.
  intros Ha Hb. unfold iso_map. cbv zeta.
  assert (K : forall i, rel (nth i ik (t_one TS)) (nth i jk (t_one TF))).
  { intro i. apply nth_rel; [exact Rk|apply (T_one HR)]. }
  set (a2 := t_sq TS a). set (b2 := t_sq TF x). assert (H2 : rel a2 b2) by (unfold a2, b2; auto with hrel). clearbody a2 b2.
  set (ad := t_add TS (t_add TS a2 _) _). set (bd := t_add TF (t_add TF b2 _) _).
  assert (Hd : rel ad bd) by (unfold ad, bd; auto 8 with hrel). clearbody ad bd.
  pose proof (T_invert HR _ _ Hd) as HI.
  destruct (t_invert TS ad) as [i|], (t_invert TF bd) as [j|]; cbn [relo] in HI; try contradiction; cbn [of_opt bind relr]; [|exact I].
  set (ae := t_add TS (t_add TS (t_add TS (t_mul TS a2 a) (t_mul TS (nth 10 _ _) a2)) _) _).
  set (be := t_add TF (t_add TF (t_add TF (t_mul TF b2 x) (t_mul TF (nth 10 _ _) b2)) _) _).
  assert (He : rel ae be) by (unfold ae, be; auto 10 with hrel). clearbody ae be.
  pose proof (T_invert HR _ _ He) as HJ.
  destruct (t_invert TS ae) as [k|], (t_invert TF be) as [l|]; cbn [relo] in HJ; try contradiction; cbn [of_opt bind relr]; [|exact I].
  cbn [fst snd]. split; auto 12 with hrel.
Qed.
End Param.
