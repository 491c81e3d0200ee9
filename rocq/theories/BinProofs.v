From Coq Require Import String ZArith List Bool Lia.
From Verif Require Import Base Primes Field Zq Limb LimbSpec LimbInt Vec MathModel PolyModel PolyProofs R1csModel CommitModel SigmaModel SumModel NizkModel NizkApi TsSpec TsEff ReadModel ReadSpec ReadProofs BinModel BinSpec.
Import ListNotations.
Local Open Scope Z_scope.

Section B.
  Context {G : Mod Fp} {E : Enc G}.
  Variable word : Z.
  Hypothesis W1 : 33 <= word.
  Hypothesis W2 : word <= 2 ^ 64.
  Variables (pb : E -> list Z) (pp : list Z -> option E).

  Definition rt {A} (fits : A -> Prop) (ser : A -> list Z) (de : list Z -> res (A * list Z)) : Prop :=
    forall a t, fits a -> de (ser a ++ t) = Ok (a, t).

  Lemma rt_usize : rt (small word) ser_usize (de_usize word).
  Proof.
    intros k t L. unfold small in L. unfold de_usize, ser_usize. rewrite le_bytes_string by lia. rewrite read_u64_app by (unfold ReadSpec.u64; lia). cbn [bind].
    destruct (Z.ltb_spec (Z.of_nat k) word); [|lia]. rewrite Nat2Z.id. reflexivity.
  Qed.
  Lemma rt_many {A} fits (ser : A -> list Z) de : rt fits ser de -> forall l t, Forall fits l -> read_many de (length l) (flat_map ser l ++ t) = Ok (l, t).
  Proof.
    intros R l t F. induction F as [|a l Ha F IH]; [reflexivity|]. cbn [length read_many flat_map]. rewrite <- app_assoc, R by exact Ha. cbn [bind]. rewrite IH. reflexivity.
  Qed.
  Lemma rt_vec {A} fits (ser : A -> list Z) de : rt fits ser de -> rt (fun l => short word l /\ Forall fits l) (ser_vec ser) (de_vec word de).
  Proof.
    intros R l t [L F]. unfold de_vec, ser_vec. rewrite <- app_assoc, rt_usize by exact L. cbn [bind]. apply (rt_many fits); assumption.
  Qed.
  Lemma rt_bytes : rt (short word) (ser_vec (fun b => [b])) (de_vec word de_u8).
  Proof.
    intros l t L. apply (rt_vec (fun _ => True)); [intros b s _; reflexivity|]. split; [exact L|]. induction l; constructor; auto. apply IHl. unfold short, small in *. cbn [length] in L. lia.
  Qed.
  Lemma rt_scalar : rt (fun _ => True) ser_scalar (de_scalar word).
  Proof.
    intros x t _. unfold de_scalar, ser_scalar, ser_vec. rewrite <- app_assoc, rt_usize by (unfold small; rewrite le_bytes_length; lia). cbn [bind].
    rewrite le_bytes_length. change (Nat.leb 32 32) with true. cbn [andb].
    replace (flat_map (fun b => [b]) (le_bytes 32 (zval x))) with (le_bytes 32 (zval x)).
    2:{ generalize (le_bytes 32 (zval x)). intro l. induction l as [|a l IH]; [reflexivity|]. cbn [flat_map app]. rewrite <- IH. reflexivity. }
    rewrite app_length, le_bytes_length. destruct (Nat.leb_spec 32 (32 + length t)); [|lia].
    rewrite firstn_app, skipn_app, le_bytes_length, firstn_all2, skipn_all2 by (rewrite le_bytes_length; lia). change (32 - 32)%nat with 0%nat. cbn [firstn skipn app]. rewrite app_nil_r.
    pose proof (zval_range _ x) as Hx. rewrite of_le_le_bytes by lia. rewrite Z.mod_small, fp_zval; [reflexivity|].
    split; [lia|]. apply (Z.lt_trans _ p); [lia|reflexivity].
  Qed.
  Hypothesis Pt : point_codec word pb pp.
  Lemma rt_point : rt (fun _ => True) (ser_point pb) (de_point word pp).
  Proof.
    intros P t _. unfold de_point, ser_point. destruct (Pt P) as [A B]. rewrite rt_bytes by exact B. cbn [bind]. rewrite A. reflexivity.
  Qed.
  Lemma rt_pointv : rt (short word) (ser_vec (ser_point pb)) (de_vec word (de_point word pp)).
  Proof. intros l t L. apply (rt_vec (fun _ => True)); [exact rt_point|]. split; [exact L|]. apply Forall_forall. auto. Qed.
  Lemma rt_scalarv : rt (short word) (ser_vec ser_scalar) (de_vec word (de_scalar word)).
  Proof. intros l t L. apply (rt_vec (fun _ => True)); [exact rt_scalar|]. split; [exact L|]. apply Forall_forall. auto. Qed.
  Local Ltac pt := rewrite <- ?app_assoc, rt_point by exact I; cbn [bind].
  Local Ltac sc := rewrite <- ?app_assoc, rt_scalar by exact I; cbn [bind].

  Lemma rt_kp : rt (fun _ => True) (ser_kp pb) (de_kp word pp).
  Proof. intros [a z1 z2] t _. unfold de_kp, ser_kp. cbn [kp_alpha kp_z1 kp_z2]. pt. sc. sc. reflexivity. Qed.
  Lemma rt_ep : rt (fun _ => True) (ser_ep pb) (de_ep word pp).
  Proof. intros [a z] t _. unfold de_ep, ser_ep. cbn [ep_alpha ep_z]. pt. sc. reflexivity. Qed.
  Lemma rt_pp : rt (fun _ => True) (ser_pp pb) (de_pp word pp).
  Proof. intros [a b d [[[[z1 z2] z3] z4] z5]] t _. unfold de_pp, ser_pp. cbn [pp_alpha pp_beta pp_delta pp_z]. do 3 pt. do 5 sc. reflexivity. Qed.
  Lemma rt_dp : rt (fun x => short word (dp_z x)) (ser_dp pb) (de_dp word pp).
  Proof.
    intros [d b z zd zb] t L. unfold de_dp, ser_dp. cbn [dp_delta dp_beta dp_z dp_zdelta dp_zbeta] in *. do 2 pt. rewrite <- ?app_assoc, rt_scalarv by exact L. cbn [bind]. do 2 sc. reflexivity.
  Qed.
  Lemma rt_lp : rt (fun x => short word (bp_L (lp_bullet x)) /\ short word (bp_R (lp_bullet x))) (ser_lp pb) (de_lp word pp).
  Proof.
    intros [[l r] d b z1 z2] t [L R]. unfold de_lp, ser_lp. cbn [lp_bullet bp_L bp_R lp_delta lp_beta lp_z1 lp_z2] in *.
    rewrite <- ?app_assoc, rt_pointv by exact L. cbn [bind]. rewrite <- ?app_assoc, rt_pointv by exact R. cbn [bind]. do 2 pt. do 2 sc. reflexivity.
  Qed.
  Lemma rt_zk : rt (zk_fits word) (ser_zk pb) (de_zk word pp).
  Proof.
    intros [a b c] t (A & B & C & D). unfold de_zk, ser_zk. cbn [zk_polys zk_evals zk_proofs] in *.
    rewrite <- ?app_assoc, rt_pointv by exact A. cbn [bind]. rewrite <- ?app_assoc, rt_pointv by exact B. cbn [bind].
    rewrite <- ?app_assoc, (rt_vec _ _ _ rt_dp) by (split; assumption). reflexivity.
  Qed.
  Definition r1csproof_fits (y : r1csproof E) : Prop :=
    short word (rp_comm_vars y) /\ zk_fits word (rp_sc1 y) /\ zk_fits word (rp_sc2 y) /\
    short word (bp_L (lp_bullet (rp_eval y))) /\ short word (bp_R (lp_bullet (rp_eval y))).
  Lemma rt_r1csproof : rt r1csproof_fits (ser_r1csproof pb) (de_r1csproof word pp).
  Proof.
    intros [cv sc1 [[[c1 c2] c3] c4] k q e1 sc2 ry ev e2] t (A & B & C & D & F).
    unfold de_r1csproof, ser_r1csproof. cbn [rp_comm_vars rp_sc1 rp_claims rp_pok rp_prod rp_eq1 rp_sc2 rp_comm_ry rp_eval rp_eq2] in *.
    rewrite <- ?app_assoc, rt_pointv by exact A. cbn [bind]. rewrite <- ?app_assoc, rt_zk by exact B. cbn [bind]. do 4 pt.
    rewrite <- ?app_assoc, rt_kp by exact I. cbn [bind]. rewrite <- ?app_assoc, rt_pp by exact I. cbn [bind]. rewrite <- ?app_assoc, rt_ep by exact I. cbn [bind].
    rewrite <- ?app_assoc, rt_zk by exact C. cbn [bind]. pt. rewrite <- ?app_assoc, rt_lp by (split; assumption). cbn [bind]. rewrite <- ?app_assoc, rt_ep by exact I. reflexivity.
  Qed.
  Lemma rt_nizk : rt (nizk_fits word) (ser_nizk pb) (de_nizk word pp).
  Proof.
    intros [rp rx ryv] t (A & B & C & D & F & K1 & K2). unfold de_nizk, ser_nizk. cbn [nz_proof nz_rx nz_ry] in *.
    rewrite <- ?app_assoc, rt_r1csproof by (repeat (split; [assumption|]); assumption). cbn [bind].
    rewrite <- ?app_assoc, rt_scalarv by exact K1. cbn [bind]. rewrite <- ?app_assoc, rt_scalarv by exact K2. reflexivity.
  Qed.
End B.
Section BI.
  Variable word : Z.
  Hypothesis W1 : 33 <= word.
  Hypothesis W2 : word <= 2 ^ 64.
  Lemma rt_entry : rt (fun e => small word (erow e) /\ small word (ecol e)) ser_entry (de_entry word).
  Proof.
    intros [r c v] t [A B]. unfold de_entry, ser_entry. cbn [erow ecol eval] in *. rewrite <- ?app_assoc, (rt_usize word W2) by exact A. cbn [bind].
    rewrite <- ?app_assoc, (rt_usize word W2) by exact B. cbn [bind]. rewrite (rt_scalar word W1 W2) by exact I. reflexivity.
  Qed.
  Lemma rt_sparse : rt (sparse_fits word) ser_sparse (de_sparse word).
  Proof.
    intros [a b m] t (A & B & C & D). unfold de_sparse, ser_sparse. cbn [snx sny sM] in *. rewrite <- ?app_assoc, (rt_usize word W2) by exact A. cbn [bind].
    rewrite <- ?app_assoc, (rt_usize word W2) by exact B. cbn [bind]. rewrite (rt_vec word W2 _ _ _ rt_entry) by (split; assumption). reflexivity.
  Qed.
  Lemma rt_instance : rt (instance_fits word) ser_instance (de_instance word).
  Proof.
    intros [[c v i A B C] d] t (F1 & F2 & F3 & FA & FB & FC & FD & Fb). unfold de_instance, ser_instance, de_r1cs, ser_r1cs. cbn [inst idigest rc_cons rc_vars rc_inputs rc_A rc_B rc_C] in *.
    rewrite <- ?app_assoc, (rt_usize word W2) by exact F1. cbn [bind]. rewrite <- ?app_assoc, (rt_usize word W2) by exact F2. cbn [bind]. rewrite <- ?app_assoc, (rt_usize word W2) by exact F3. cbn [bind].
    rewrite <- ?app_assoc, rt_sparse by exact FA. cbn [bind]. rewrite <- ?app_assoc, rt_sparse by exact FB. cbn [bind]. rewrite <- ?app_assoc, rt_sparse by exact FC. cbn [bind].
    assert (X : ser_vec (fun b => [Z.of_nat b]) d = ser_vec (fun b => [b]) (map Z.of_nat d)).
    { unfold ser_vec. rewrite map_length. f_equal. clear. induction d as [|a d IH]; [reflexivity|]. cbn [flat_map map app]. rewrite IH. reflexivity. }
    rewrite X, (rt_bytes word W2). 2:{ unfold short. rewrite map_length. exact FD. }
    cbn [bind]. rewrite map_map. rewrite (map_ext _ (fun x => x)) by (intro; apply Nat2Z.id). rewrite map_id. reflexivity.
  Qed.
End BI.
