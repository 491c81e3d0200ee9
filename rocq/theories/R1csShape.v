(** More about building instances and assignments. *)
From Coq Require Import String List Arith ZArith Bool Lia.
From Verif Require Import Base Field Zq Vec MathModel PolyModel PolyProofs PolyImp PolySpec R1csModel R1csSpec R1csProofs R1csMore R1csApi.
Import ListNotations.
Local Open Scope fld_scope.

Lemma next_pow2_least n k : (n <= 2 ^ k)%nat -> (next_pow2 n <= 2 ^ k)%nat.
Proof.
  intro L. unfold next_pow2. apply Nat.pow_le_mono_r; [lia|]. destruct (Nat.eq_dec n 0) as [->|N]; [cbn; lia|].
  apply Nat.log2_up_le_pow2; lia.
Qed.
Lemma assignment_spec (K : Fld) (bytes : Type) (parse : bytes -> option K) (l : list bytes) :
  (forall xs, assignment_new parse l = Ok xs <-> map parse l = map Some xs) /\
  (assignment_new parse l = Err InvalidScalar <-> exists b, In b l /\ parse b = None) /\
  assignment_new parse l <> Panic.
Proof.
  induction l as [|b l (I1 & I2 & I3)]; cbn [assignment_new map].
  - repeat split; try discriminate.
    + intros [= <-]. reflexivity.
    + destruct xs; [reflexivity|discriminate].
    + intros (b & [] & _).
  - destruct (parse b) as [x|] eqn:P.
    + destruct (assignment_new parse l) as [ys|e|] eqn:A; cbn [bind].
      * repeat split; try discriminate.
        -- intros [= <-]. cbn [map]. f_equal. now apply I1.
        -- destruct xs as [|y xs]; intro Q; [discriminate Q|]. cbn [map] in Q. injection Q as <- Q. apply I1 in Q. injection Q as <-. reflexivity.
        -- intros (b' & [<-|B] & Q); [congruence|]. assert (Z : Ok ys = Err (A:=list K) InvalidScalar) by (apply I2; eauto). discriminate Z.
      * repeat split; try discriminate.
        -- destruct xs as [|y xs]; intro Q; [discriminate Q|]. cbn [map] in Q. injection Q as <- Q. apply I1 in Q. discriminate Q.
        -- intros [= ->]. destruct I2 as [I2 _]. destruct (I2 eq_refl) as (b' & B & Q). exists b'. split; [now right|exact Q].
        -- intros (b' & [<-|B] & Q); [congruence|]. apply I2. eauto.
      * now destruct I3.
    + repeat split; try discriminate.
      * destruct xs; discriminate.
      * intros _. exists b. split; [now left|exact P].
Qed.
Lemma r1cs_new_spec (K : Fld) (nc nv ni : nat) (A B C : list (entry K)) :
  match r1cs_new nc nv ni A B C with
  | Ok ii => (exists a, nc = 2 ^ a /\ (forall P, In P [rc_A ii; rc_B ii; rc_C ii] -> snx P = a))%nat /\
            (exists b, nv = 2 ^ b /\ forall P, In P [rc_A ii; rc_B ii; rc_C ii] -> sny P = S b)%nat /\ (ni < nv)%nat /\
            rc_cons ii = nc /\ rc_vars ii = nv /\ rc_inputs ii = ni /\ sM (rc_A ii) = A /\ sM (rc_B ii) = B /\ sM (rc_C ii) = C
  | Err _ => False
  | Panic => ~ ((exists a, nc = 2 ^ a)%nat /\ (exists b, nv = 2 ^ b)%nat /\ (ni < nv)%nat)
  end.
Proof.
  unfold r1cs_new. destruct (Nat.eqb_spec (next_pow2 nc) nc) as [E1|E1]; [|intros ((a & ->) & _); rewrite next_pow2_pow in E1; lia].
  destruct (Nat.eqb_spec (next_pow2 nv) nv) as [E2|E2]; [|intros (_ & (a & ->) & _); rewrite next_pow2_pow in E2; lia].
  destruct (Nat.ltb_spec ni nv) as [E3|E3]; [|intros (_ & _ & L); lia].
  assert (Q : forall n, next_pow2 n = n -> n = (2 ^ Nat.log2_up n)%nat) by (intros n X; symmetry; exact X).
  assert (Q0 : forall n, next_pow2 n = n -> n <> 0%nat) by (intros n X Y; subst n; discriminate X).
  assert (N2 : next_pow2 (2 * nv) = (2 * nv)%nat).
  { rewrite (Q nv E2), <- Nat.pow_succ_r' . apply next_pow2_pow. }
  unfold log_2. pose proof (Q0 nc E1). pose proof (Q0 nv E2).
  destruct nc as [|nc']; [lia|]. destruct (2 * nv)%nat as [|m] eqn:Em; [lia|]. cbn [bind rc_A rc_B rc_C rc_cons rc_vars rc_inputs sM snx sny].
  split; [exists (Nat.log2_up (S nc')); split; [now apply Q|intros P [<-|[<-|[<-|[]]]]; reflexivity]|].
  split; [|repeat split; auto].
  exists (Nat.log2_up nv). split; [now apply Q|].
  assert (Z : Nat.log2_up (S m) = S (Nat.log2_up nv)) by (rewrite <- Em, (Q nv E2), <- Nat.pow_succ_r', !Nat.log2_up_pow2; lia).
  intros P [<-|[<-|[<-|[]]]]; exact Z.
Qed.
Lemma dims_least (K : Fld) (bytes : Type) (parse : bytes -> option K) (D : Type) (digest_of : r1cs K -> D)
    (nc nv ni : nat) (A B C : list (nat * nat * bytes)) I :
  instance_new parse digest_of nc nv ni A B C = Ok I ->
  forall k, ((nc <= 2 ^ k -> (nc = 1 -> 1 <= k) -> rc_cons (inst I) <= 2 ^ k) /\
             (nv <= 2 ^ k -> ni + 1 <= 2 ^ k -> rc_vars (inst I) <= 2 ^ k))%nat.
Proof.
  intro X. apply new_dims in X. destruct X as (-> & -> & _). intro k. rewrite pad_vars_eq, pad_cons_eq. split.
  - intros L1 L2. destruct (Nat.eqb_spec nc 1) as [->|_]; [|now apply next_pow2_least]. specialize (L2 eq_refl). change 2%nat with (2 ^ 1)%nat at 1. apply Nat.pow_le_mono_r; lia.
  - intros L1 L2. apply next_pow2_least. lia.
Qed.
Lemma ents_mono {K : Fld} nr nc nc' (M : list (entry K)) : (nc <= nc')%nat -> ents_ok nr nc M -> ents_ok nr nc' M.
Proof. intros L O e X. destruct (O e X) as [O1 O2]. split; [exact O1|lia]. Qed.
Lemma eval_tables (K : Fld) (I : r1cs K) (e : list K) : r1cs_wf I -> (rc_inputs I < rc_vars I)%nat -> length e = rc_cons I ->
  let n := (2 * rc_vars I)%nat in
  exists ta tb tc, r1cs_eval_table I (rc_cons I) n e = Ok (ta, tb, tc) /\ length ta = n /\ length tb = n /\ length tc = n /\
    forall j : nat, (j < n)%nat ->
      nth j ta 0 = sumn (rc_cons I) (fun i => nth i e 0 * mat (triples (sM (rc_A I))) i j) /\
      nth j tb 0 = sumn (rc_cons I) (fun i => nth i e 0 * mat (triples (sM (rc_B I))) i j) /\
      nth j tc 0 = sumn (rc_cons I) (fun i => nth i e 0 * mat (triples (sM (rc_C I))) i j).
Proof.
  intros (WA & WB & WC) Li Le n. assert (Ln : (rc_vars I + rc_inputs I + 1 <= n)%nat) by (unfold n; lia).
  destruct (eval_table_ok K (rc_A I) e (rc_cons I) n Le (ents_mono _ _ _ _ Ln WA)) as (ta & Ea & La & Na).
  destruct (eval_table_ok K (rc_B I) e (rc_cons I) n Le (ents_mono _ _ _ _ Ln WB)) as (tb & Eb & Lb & Nb).
  destruct (eval_table_ok K (rc_C I) e (rc_cons I) n Le (ents_mono _ _ _ _ Ln WC)) as (tc & Ec & Lc & Nc).
  exists ta, tb, tc. split; [|repeat split; auto].
  unfold r1cs_eval_table. rewrite Nat.eqb_refl, Ea, Eb, Ec. replace (Nat.ltb _ _) with true by (symmetry; apply Nat.ltb_lt; lia). reflexivity.
Qed.
Lemma multiply_three (K : Fld) (I : r1cs K) (z : list K) : r1cs_wf I -> (rc_inputs I < rc_vars I)%nat -> length z = (2 * rc_vars I)%nat ->
  (exists k, rc_cons I = 2 ^ k)%nat ->
  exists a b c, r1cs_multiply_vec I (rc_cons I) (length z) z = Ok (a, b, c) /\
    length (dZ a) = rc_cons I /\ length (dZ b) = rc_cons I /\ length (dZ c) = rc_cons I /\
    forall i, (i < rc_cons I)%nat ->
      nth i (dZ a) 0 = sumn (length z) (fun j => mat (triples (sM (rc_A I))) i j * nth j z 0) /\
      nth i (dZ b) 0 = sumn (length z) (fun j => mat (triples (sM (rc_B I))) i j * nth j z 0) /\
      nth i (dZ c) 0 = sumn (length z) (fun j => mat (triples (sM (rc_C I))) i j * nth j z 0).
Proof.
  intros (WA & WB & WC) Li Le (k & Ek). assert (Ln : (rc_vars I + rc_inputs I + 1 <= length z)%nat) by lia.
  destruct (api_mul K (rc_A I) (rc_cons I) _ z eq_refl (ents_mono _ _ _ _ Ln WA)) as (ta & Ea & La & Na).
  destruct (api_mul K (rc_B I) (rc_cons I) _ z eq_refl (ents_mono _ _ _ _ Ln WB)) as (tb & Eb & Lb & Nb).
  destruct (api_mul K (rc_C I) (rc_cons I) _ z eq_refl (ents_mono _ _ _ _ Ln WC)) as (tc & Ec & Lc & Nc).
  exists (MkDense k (2 ^ k) ta), (MkDense k (2 ^ k) tb), (MkDense k (2 ^ k) tc). split; [|cbn [dZ]; repeat split; auto].
  unfold r1cs_multiply_vec. rewrite !Nat.eqb_refl, Ea, Eb, Ec. replace (Nat.ltb _ _) with true by (symmetry; apply Nat.ltb_lt; lia).
  cbn [bind]. repeat (match goal with |- context [dense_new ?t] => destruct (dense_new_ok K t k) as (-> & _); [congruence|] end; cbn [bind]). reflexivity.
Qed.

