(** Product circuits: soundness of the evaluation proofs. *)
From Coq Require Import String List Arith Lia Bool Field Ring.
From Verif Require Import Base ListAux Field Vec MathModel PolyModel PolySpec PolyProofs PolyImp CommitModel SigmaModel CommitProofs SumModel SumSpec SumProofs SumComplete SumApi ProdModel ProdSpec ProdProofs ProdBatch.
Import ListNotations.

Section Mle.
  Context {K : Fld}.
  Local Open Scope fld_scope.
  Add Field Kpm : (fth K).
  (** a multilinear extension is affine in each variable *)
  Lemma mle_line pre : forall (V : list K) post, length V = (2 ^ (length pre + S (length post)))%nat ->
    exists a b, forall x, mle V (pre ++ x :: post) = a + x * b.
  Proof.
    induction pre as [|y pre IH]; intros V post L; cbn [length Nat.add app] in *.
    - eexists _, _. intro x. apply mle_lo_hi. exact L.
    - destruct (half_len V _ L) as [A B]. destruct (IH (lo V) post A) as (a & b & E1). destruct (IH (hi V) post B) as (a' & b' & E2).
      exists (a + y * (a' - a)), (b + y * (b' - b)). intro x.
      rewrite mle_lo_hi by (rewrite app_length; exact L). rewrite E1, E2. ring.
  Qed.
  Lemma mle_deg1 n (V : list K) : length V = (2 ^ n)%nat -> deg_each 1 n (mle V).
  Proof.
    intros L pre post Lp. destruct (mle_line pre V post) as (a & b & Ea); [rewrite Lp; exact L|].
    exists [a; b]. split; [cbn; lia|]. intro x. rewrite Ea, !peval_cons, peval_nil. ring.
  Qed.
  Lemma deg3_prod n (A B C : list K) : length A = (2 ^ n)%nat -> length B = (2 ^ n)%nat -> length C = (2 ^ n)%nat ->
    deg_each 3 n (fun b => mle A b * mle B b * mle C b).
  Proof.
    intros LA LB LC pre post Lp.
    destruct (mle_line pre A post) as (a & a' & Ea); [rewrite Lp; exact LA|].
    destruct (mle_line pre B post) as (b & b' & Eb); [rewrite Lp; exact LB|].
    destruct (mle_line pre C post) as (c & c' & Ec); [rewrite Lp; exact LC|].
    destruct (prod3_line a a' b b' c c') as (cs & Lc & P). exists cs. split; [lia|]. intro x. rewrite Ea, Eb, Ec. apply P.
  Qed.
  Lemma deg_zero d n : deg_each d n (fun _ : list K => 0).
  Proof. intros pre post _. exists []. split; [cbn; lia|]. intro x. rewrite peval_nil. reflexivity. Qed.
  Lemma deg_comb d n (f g : list K -> K) c : deg_each d n f -> deg_each d n g -> deg_each d n (fun b => c * f b + g b).
  Proof.
    intros F G pre post L. destruct (F pre post L) as (u & Lu & Eu). destruct (G pre post L) as (v & Lv & Ev).
    exists (padd c v u). split; [rewrite padd_length; lia|]. intro x. rewrite peval_padd, Eu, Ev. ring.
  Qed.
  Lemma mle_0 (V : list K) r : length V = (2 ^ S (length r))%nat -> mle V (0 :: r) = mle (lo V) r.
  Proof. intro L. rewrite mle_lo_hi by exact L. ring. Qed.
  Lemma mle_1 (V : list K) r : length V = (2 ^ S (length r))%nat -> mle V (1 :: r) = mle (hi V) r.
  Proof. intro L. rewrite mle_lo_hi by exact L. ring. Qed.
  (** summing over the hypercube is summing over the tables *)
  Lemma hsum_tables n : forall A B C : list K, length A = (2 ^ n)%nat -> length B = (2 ^ n)%nat -> length C = (2 ^ n)%nat ->
    hsum n (fun b => mle A b * mle B b * mle C b) = sumn (2 ^ n) (fun i => nth i A 0 * nth i B 0 * nth i C 0).
  Proof.
    induction n; intros A B C LA LB LC.
    - cbn [hsum]. destruct A as [|a [|]]; try discriminate. destruct B as [|b [|]]; try discriminate. destruct C as [|c [|]]; try discriminate.
      rewrite !mle_nil. change (2 ^ 0)%nat with 1%nat. rewrite sumn_S, sumn_nil. cbn [nth]. ring.
    - destruct (half_len _ _ LA) as [A1 A2]. destruct (half_len _ _ LB) as [B1 B2]. destruct (half_len _ _ LC) as [C1 C2].
      cbn [hsum]. rewrite (hsum_ext n _ (fun b => mle (lo A) b * mle (lo B) b * mle (lo C) b)).
      2: { intros b Lb. rewrite !mle_0 by (rewrite Lb; assumption). reflexivity. }
      rewrite (hsum_ext n (fun b => mle A (1 :: b) * mle B (1 :: b) * mle C (1 :: b)) (fun b => mle (hi A) b * mle (hi B) b * mle (hi C) b)).
      2: { intros b Lb. rewrite !mle_1 by (rewrite Lb; assumption). reflexivity. }
      rewrite !IHn by assumption. rewrite pow2_S, sumn_add. f_equal; apply sumn_ext; intros i Hi.
      + unfold lo. rewrite LA, LB, LC, pow_half, !firstn_nth by exact Hi. reflexivity.
      + unfold hi. rewrite LA, LB, LC, pow_half, !skipn_nth. reflexivity.
  Qed.
  Lemma hsum_comb n : forall (f g : list K -> K) c, hsum n (fun b => c * f b + g b) = c * hsum n f + hsum n g.
  Proof. induction n; intros f g c; cbn [hsum]; [reflexivity|]. rewrite !(IHn (fun b => f (_ :: b))). ring. Qed.
  Lemma hsum_zero n : hsum n (fun _ : list K => 0) = 0.
  Proof. induction n; cbn [hsum]; [reflexivity|]. rewrite IHn. ring. Qed.
  (** the claim about a level is a sum over the cube of products of the level below *)
  Lemma hsum_level (V : list K) n rand : length V = (2 ^ S n)%nat -> length rand = n ->
    hsum n (fun b => mle (lo V) b * mle (hi V) b * eq_mle rand b) = mle (map2 fmul (lo V) (hi V)) rand.
  Proof.
    intros L Lr. destruct (half_len _ _ L) as [A B]. unfold eq_mle. rewrite hsum_tables by (assumption || (rewrite eq_evals_length, Lr; reflexivity)).
    symmetry. apply mle_level; assumption.
  Qed.
End Mle.

Section Sound.
  Context {K : Fld} {G : Mod K} {E : Enc G}.
  Local Open Scope fld_scope.
  Variable H : log E -> K.
  Add Field Kpq : (fth K).

  Lemma sc_verify_len polys claim n d (tr : log E) e r tr' : sc_verify H polys claim n d tr = Ok (e, r, tr') -> length r = n.
  Proof. unfold sc_verify. destruct (Nat.eqb_spec (length polys) n); [|discriminate]. intro X. rewrite (sc_rounds_length H _ _ _ _ _ _ _ X). assumption. Qed.

  Lemma idx2 {A} (l : list A) a b : idx l 0 = Ok a -> idx l 1 = Ok b -> exists rest, l = a :: b :: rest.
  Proof. destruct l as [|u [|v l]]; cbn; intros X Y; try discriminate. injection X as ->. injection Y as ->. exists l. reflexivity. Qed.

  Lemma pe_sound n Z pfs : length Z = (2 ^ n)%nat -> forall i claim rand (tr : log E) claim' rand' tr',
    (i + length pfs = n)%nat -> length rand = i -> pe_verify_loop H pfs i claim rand tr = Ok (claim', rand', tr') -> claim' = mle Z rand' ->
    length rand' = n /\
    (claim = mle (level (n - i) Z) rand \/
     exists j pf cj rj tj, nth_error pfs j = Some pf /\ pe_verify_loop H (firstn j pfs) i claim rand tr = Ok (cj, rj, tj) /\
       bad_layer H n Z (i + j) (ly_proof pf) (ly_claims pf) cj rj tj).
  Proof.
    intro LZ. induction pfs as [|pf pfs IH]; intros i claim rand tr claim' rand' tr' Li Lr X Ec.
    - cbn in X. injection X as -> -> ->. cbn [length] in Li. split; [lia|]. left. replace (n - i)%nat with 0%nat by lia. exact Ec.
    - cbn [pe_verify_loop] in X. destruct (sc_verify H (ly_proof pf) claim i 3 tr) as [[[e r] tr1]| |] eqn:EV; try discriminate. cbn [bind] in X.
      destruct (idx (ly_claims pf) 0) as [a| |] eqn:I0; try discriminate. cbn [bind] in X.
      destruct (idx (ly_claims pf) 1) as [b| |] eqn:I1; try discriminate. cbn [bind] in X.
      destruct (Nat.eqb_spec (length rand) (length r)) as [Lrr|]; [|discriminate].
      destruct (feqb_spec K (a * b * eq_points rand r) e) as [Ee|]; [|discriminate]. unfold challenge in X.
      rewrite eq_points_mle in Ee by exact Lrr. set (x := H _) in X. cbn [length] in Li.
      pose proof X as X0. apply IH in X; [|lia|cbn [length]; lia|exact Ec]. destruct X as [LR X]. split; [exact LR|].
      assert (Lcl : length (level (n - S i) Z) = (2 ^ S i)%nat) by (apply level_len; rewrite LZ; f_equal; lia).
      destruct (half_len _ _ Lcl) as [A B]. set (V := level (n - S i) Z) in *.
      assert (EL : level (n - i) Z = map2 fmul (lo V) (hi V)) by (replace (n - i)%nat with (S (n - S i)) by lia; reflexivity).
      destruct (feqb_spec K claim (mle (level (n - i) Z) rand)) as [T|NT]; [left; exact T|right].
      destruct X as [Xt|(j & pf' & cj & rj & tj & N & P & Bad)].
      + exists 0%nat, pf, claim, rand, tr. split; [reflexivity|]. split; [reflexivity|]. rewrite Nat.add_0_r. split; [exact NT|]. fold V.
        destruct (feqb_spec K a (mle (lo V) r)) as [Ta|Na]; [destruct (feqb_spec K b (mle (hi V) r)) as [Tb|Nb]|].
        * left. exists e, r, tr1. split; [exact EV|]. split; [apply deg3_prod; [exact A|exact B|rewrite eq_evals_length, Lr; reflexivity]|].
          split; [rewrite <- Ta, <- Tb; exact Ee|]. rewrite hsum_level by (assumption || lia). rewrite <- EL. congruence.
        * right. destruct (idx2 _ _ _ I0 I1) as (rest & Er). exists a, b, rest, e, r, tr1. split; [exact EV|]. split; [exact Er|]. split; [right; exact Nb|].
          change (H (MChal _ :: _)) with x. rewrite <- mle_lo_hi by (replace (length r) with i by lia; exact Lcl). rewrite <- Xt. ring.
        * right. destruct (idx2 _ _ _ I0 I1) as (rest & Er). exists a, b, rest, e, r, tr1. split; [exact EV|]. split; [exact Er|]. split; [left; exact Na|].
          change (H (MChal _ :: _)) with x. rewrite <- mle_lo_hi by (replace (length r) with i by lia; exact Lcl). rewrite <- Xt. ring.
      + exists (S j), pf', cj, rj, tj. split; [exact N|]. split; [|replace (i + S j)%nat with (S i + j)%nat by lia; exact Bad].
        cbn [firstn pe_verify_loop]. rewrite EV. cbn [bind]. rewrite I0. cbn [bind]. rewrite I1. cbn [bind].
        destruct (Nat.eqb_spec (length rand) (length r)) as [_|]; [|contradiction]. rewrite eq_points_mle by exact Lrr.
        destruct (feqb_spec K (a * b * eq_mle rand r) e) as [_|]; [|contradiction]. exact P.
  Qed.

  Lemma pce_sound n (Z : list K) pf eval (tr : log E) claim rand tr' : length Z = (2 ^ n)%nat ->
    pce_verify H pf eval (2 ^ n) tr = Ok (claim, rand, tr') -> claim = mle Z rand ->
    length pf = n /\ length rand = n /\
    (eval = fprod Z \/
     exists i pfi ci ri ti, (i < n)%nat /\ nth_error pf i = Some pfi /\ pce_verify H (firstn i pf) eval (2 ^ i) tr = Ok (ci, ri, ti) /\
       bad_layer H n Z i (ly_proof pfi) (ly_claims pfi) ci ri ti).
  Proof.
    intros LZ X Ec. unfold pce_verify in X. rewrite log_2_pow in X. cbn [bind] in X. destruct (Nat.eqb_spec (length pf) n) as [Lp|]; [|discriminate].
    split; [exact Lp|]. destruct (pe_sound n Z pf LZ 0 eval [] tr claim rand tr' ltac:(lia) eq_refl X Ec) as [LR [T|(j & pfj & cj & rj & tj & N & P & B)]]; (split; [exact LR|]).
    - left. rewrite Nat.sub_0_r, (level_top n Z LZ), mle_nil in T. exact T.
    - right. exists j, pfj, cj, rj, tj. assert (j < n)%nat by (rewrite <- Lp; apply nth_error_Some; congruence).
      split; [assumption|]. split; [exact N|]. split; [|exact B].
      unfold pce_verify. rewrite log_2_pow. cbn [bind]. rewrite firstn_length, Nat.min_l, Nat.eqb_refl by lia. exact P.
  Qed.
End Sound.
