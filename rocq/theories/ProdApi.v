(** Statements about product circuits in the form used by PropsProd.v. *)
From Coq Require Import String List Arith ZArith Lia Bool Field Ring.
From Verif Require Import Base ListAux Field Zq Vec MathModel PolyModel PolySpec PolyProofs PolyImp CommitModel SigmaModel SumModel SumSpec ProdModel ProdSpec ProdProofs ProdBatch ProdSound ProdSoundB.
Import ListNotations.
Local Open Scope fld_scope.

Section Api.
  Context (K : Fld).
  Add Field Kpa : (fth K).
  Lemma api_circuit (d : dense K) n : dense_ok d -> dnum_vars d = S n ->
    exists c, pc_new d = Ok c /\ pc_evaluate c = Ok (fprod (live d)) /\ length (pc_left c) = S n /\ length (pc_right c) = S n /\
      forall k, (k <= n)%nat -> exists l r, nth_error (pc_left c) k = Some l /\ nth_error (pc_right c) k = Some r /\
        dense_ok l /\ dense_ok r /\ live l = lo (level k (live d)) /\ live r = hi (level k (live d)).
  Proof.
    intros O N. destruct (pc_new_ok d n O N) as (c & Ec & C). pose proof (live_length K d O) as LL.
    assert (LV : length (live d) = (2 ^ S n)%nat) by (rewrite LL; destruct O as [O1 _]; rewrite O1, N; reflexivity).
    exists c. split; [exact Ec|]. split; [exact (pc_evaluate_ok n (live d) c LV C)|]. destruct C as (C1 & C2 & C3). split; [exact C1|]. split; [exact C2|].
    intros k Hk. destruct (C3 k ltac:(lia)) as [X Y]. unfold idx, of_opt in X, Y.
    destruct (nth_error (pc_left c) k) as [l|]; [|discriminate]. destruct (nth_error (pc_right c) k) as [r|]; [|discriminate].
    injection X as ->. injection Y as ->. do 2 eexists. split; [reflexivity|]. split; [reflexivity|].
    assert (Lk : length (level k (live d)) = (2 ^ S (S n - 1 - k))%nat) by (apply level_len; rewrite LV; f_equal; lia).
    destruct (half_len _ _ Lk) as [A B]. destruct (dt_ok _ _ A) as (a & _ & b). destruct (dt_ok _ _ B) as (a' & _ & b'). repeat split; try assumption; try apply a; apply a'.
  Qed.
  Lemma api_split n (D : dcircuit K) :
    (dense_ok (dc_left D) /\ dnum_vars (dc_left D) = S n) -> (dense_ok (dc_right D) /\ dnum_vars (dc_right D) = S n) -> (dense_ok (dc_weight D) /\ dnum_vars (dc_weight D) = S n) ->
    exists A B a b, dc_split D = Ok (A, B) /\ dc_evaluate A = Ok a /\ dc_evaluate B = Ok b /\ dc_evaluate D = Ok (a + b) /\
      live (dc_left A) ++ live (dc_left B) = live (dc_left D) /\ live (dc_right A) ++ live (dc_right B) = live (dc_right D) /\
      live (dc_weight A) ++ live (dc_weight B) = live (dc_weight D) /\ dlen (dc_left A) = dlen (dc_left B).
  Proof.
    intros X Y Z. pose proof (dc_split_ok n D X Y Z) as ES. pose proof (dc_evaluate_ok _ D X Y Z) as EE.
    destruct (dok_len _ _ X) as [LX _]. destruct (dok_len _ _ Y) as [LY _]. destruct (dok_len _ _ Z) as [LZ _].
    assert (T : tlen (S n) (live3 D)) by (repeat split; assumption).
    assert (T1 : tlen n (tlo (live3 D))) by (apply (cut_len n [live3 D]); [intros t [<-|[]]; exact T|left; reflexivity]).
    assert (T2 : tlen n (thi (live3 D))) by (apply (cut_len n [live3 D]); [intros t [<-|[]]; exact T|right; left; reflexivity]).
    pose proof (dc_evaluate_of n _ T1) as E1. pose proof (dc_evaluate_of n _ T2) as E2.
    do 4 eexists. split; [exact ES|]. split; [exact E1|]. split; [exact E2|]. split.
    - rewrite EE. f_equal. symmetry. apply (dot3_halves n); assumption.
    - destruct T1 as (A1 & A2 & A3), T2 as (B1 & B2 & B3).
      unfold dc_of. cbn [dc_left dc_right dc_weight].
      rewrite (proj2 (proj2 (dt_ok n _ A1))), (proj2 (proj2 (dt_ok n _ A2))), (proj2 (proj2 (dt_ok n _ A3))), (proj2 (proj2 (dt_ok n _ B1))), (proj2 (proj2 (dt_ok n _ B2))), (proj2 (proj2 (dt_ok n _ B3))).
      repeat split; try apply lo_hi.
  Qed.
  Lemma api_meet (a b A B x y : K) : meet a b A B x -> meet a b A B y -> x = y.
  Proof.
    intros [D X] [_ Y]. set (u := a - A). set (v := b - B).
    assert (X1 : u + x * (v - u) = 0) by (unfold u, v; transitivity ((a + x * (b - a)) - (A + x * (B - A))); [ring|rewrite X; ring]).
    assert (Y1 : u + y * (v - u) = 0) by (unfold u, v; transitivity ((a + y * (b - a)) - (A + y * (B - A))); [ring|rewrite Y; ring]).
    assert (P : (x - y) * (v - u) = 0) by (transitivity ((u + x * (v - u)) - (u + y * (v - u))); [ring|rewrite X1, Y1; ring]).
    apply fmul_eq_0 in P. destruct P as [P|P]; [apply fsub_eq_0; exact P|]. exfalso.
    assert (U : u = 0) by (rewrite P in X1; rewrite <- X1; ring). assert (V : v = 0) by (transitivity (u + (v - u)); [ring|rewrite P, U; ring]).
    destruct D as [D|D]; apply D; apply fsub_eq_0; assumption.
  Qed.
End Api.
