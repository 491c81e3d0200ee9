(** What is read from bytes fits the machine: every count and index is a [usize]. *)
From Coq Require Import String ZArith List Bool Lia.
From Verif Require Import Base Primes Field Zq Limb LimbSpec LimbInt R1csModel CommitModel SigmaModel SumModel NizkModel TsSpec ReadModel BinModel BinSpec.
Import ListNotations.
Local Open Scope Z_scope.

Definition yields {A} (P : A -> Prop) (de : list Z -> res (A * list Z)) : Prop :=
  forall s a r, is_bytes s -> de s = Ok (a, r) -> P a /\ is_bytes r.
Lemma y_bind {A B} (P : A -> Prop) (Q : B -> Prop) (de : list Z -> res (A * list Z)) (f : A -> list Z -> res (B * list Z)) :
  yields P de -> (forall a, P a -> yields Q (f a)) -> yields Q (fun s => do (a, s) <- de s; f a s).
Proof.
  intros D F s b r Bs X. destruct (de s) as [[a s']| |] eqn:Y; try discriminate. cbn [bind] in X. destruct (D _ _ _ Bs Y) as [Pa Bs']. exact (F a Pa s' b r Bs' X).
Qed.
Lemma y_ret {A} (P : A -> Prop) (a : A) : P a -> yields P (fun s => Ok (a, s)).
Proof. intros Pa s b r Bs X. injection X as <- <-. split; assumption. Qed.
Lemma y_impl {A} (P Q : A -> Prop) de : (forall a, P a -> Q a) -> yields P de -> yields Q de.
Proof. intros I D s a r Bs X. destruct (D _ _ _ Bs X). split; [apply I|]; assumption. Qed.
Lemma bytes_firstn k s : is_bytes s -> is_bytes (firstn k s).
Proof. unfold is_bytes. revert s. induction k as [|k IH]; intros [|x s] H; cbn [firstn]; try constructor; inversion H; subst; [assumption|apply IH; assumption]. Qed.
Lemma bytes_skipn k s : is_bytes s -> is_bytes (skipn k s).
Proof. unfold is_bytes. revert s. induction k as [|k IH]; intros [|x s] H; cbn [skipn]; try assumption. inversion H; subst. apply IH; assumption. Qed.
Lemma y_exact k : yields is_bytes (read_exact k).
Proof. intros s a r Bs X. unfold read_exact in X. destruct (Nat.leb k (length s)); [|discriminate]. injection X as <- <-. split; [apply bytes_firstn|apply bytes_skipn]; exact Bs. Qed.
Lemma y_u64 : yields (fun k => 0 <= k) read_u64.
Proof. apply (y_bind is_bytes _ (read_exact 8) (fun b s => Ok (of_le b, s))); [apply y_exact|]. intros b Bb. apply y_ret. apply (of_le_bound b Bb). Qed.
Lemma y_many {A} (P : A -> Prop) de : yields P de -> forall k, yields (fun l => length l = k /\ Forall P l) (read_many de k).
Proof.
  intros D k. induction k as [|k IH]; [apply y_ret; split; [reflexivity|constructor]|].
  apply (y_bind P _ de (fun a s => do (l, s) <- read_many de k s; Ok (a :: l, s))); [exact D|]. intros a Pa.
  apply (y_bind _ _ (read_many de k) (fun l s => Ok (a :: l, s)) IH). intros l [L F]. apply y_ret. split; [cbn [length]; lia|constructor; assumption].
Qed.

Section Fits.
  Context {G : Mod Fp} {E : Enc G}.
  Variables (word : Z) (pp : list Z -> option E).
  Lemma y_usize : yields (small word) (de_usize word).
  Proof using word.
    apply (y_bind _ _ read_u64 (fun k s => if k <? word then Ok (Z.to_nat k, s) else Err OtherErr) y_u64). intros k Hk s a r Bs X.
    destruct (Z.ltb_spec k word); [|discriminate]. injection X as <- <-. split; [unfold small; lia|exact Bs].
  Qed.
  Lemma y_vec {A} (P : A -> Prop) de : yields P de -> yields (fun l => short word l /\ Forall P l) (de_vec word de).
  Proof using word.
    intro D. apply (y_bind _ _ (de_usize word) (fun k s => read_many de k s) y_usize). intros k Hk. refine (y_impl _ _ _ _ (y_many P de D k)).
    intros l [L F]. split; [unfold short; rewrite L; exact Hk|exact F].
  Qed.
  Lemma y_u8 : yields (fun b => 0 <= b < 256) de_u8.
  Proof. intros [|x s] a r Bs X; [discriminate|]. injection X as <- <-. inversion Bs; subst. split; assumption. Qed.
  Lemma y_scalar : yields (fun _ => True) (de_scalar word).
  Proof using word.
    apply (y_bind _ _ (de_usize word) (fun k s => assert (Nat.leb 32 k); assert (Nat.leb 32 (length s)); Ok (fp (of_le (firstn 32 s)), skipn 32 s)) y_usize).
    intros k _ s a r Bs X. destruct (Nat.leb 32 k); [|discriminate]. destruct (Nat.leb 32 (length s)); [|discriminate]. injection X as <- <-. split; [exact I|exact (bytes_skipn 32 s Bs)].
  Qed.
  Lemma y_point : yields (fun _ => True) (de_point word pp).
  Proof.
    apply (y_bind _ _ (de_vec word de_u8) (fun b s => match pp b with Some P => Ok (P, s) | None => Err OtherErr end) (y_vec _ _ y_u8)).
    intros b _ s a r Bs X. destruct (pp b); [|discriminate]. injection X as <- <-. split; [exact I|exact Bs].
  Qed.
  Ltac y := cbn beta; lazymatch goal with
    | |- yields _ (fun s => Ok (_, s)) => apply y_ret
    | |- _ => eapply (y_bind _ _ _ (fun a s => _)); [first [apply y_usize | apply y_scalar | apply y_point | apply (y_vec _ _ y_u8) | apply (y_vec _ _ y_scalar) | apply (y_vec _ _ y_point) | eassumption | apply y_vec; eassumption]|cbn beta; intros ? ?]
    end.
  Lemma y_kp : yields (fun _ => True) (de_kp word pp). Proof. unfold de_kp. repeat y. exact I. Qed.
  Lemma y_ep : yields (fun _ => True) (de_ep word pp). Proof. unfold de_ep. repeat y. exact I. Qed.
  Lemma y_pp : yields (fun _ => True) (de_pp word pp). Proof. unfold de_pp. repeat y. exact I. Qed.
  Lemma y_dp : yields (fun d => short word (dp_z d)) (de_dp word pp). Proof. unfold de_dp. repeat y. cbn [dp_z]. intuition. Qed.
  Lemma y_lp : yields (fun x => short word (bp_L (lp_bullet x)) /\ short word (bp_R (lp_bullet x))) (de_lp word pp). Proof. unfold de_lp. repeat y. cbn. intuition. Qed.
  Lemma y_zk : yields (zk_fits word) (de_zk word pp).
  Proof. pose proof y_dp. unfold de_zk. repeat y. unfold zk_fits. cbn. intuition. Qed.
  Lemma y_r1csproof : yields (fun y => short word (rp_comm_vars y) /\ zk_fits word (rp_sc1 y) /\ zk_fits word (rp_sc2 y) /\
    short word (bp_L (lp_bullet (rp_eval y))) /\ short word (bp_R (lp_bullet (rp_eval y)))) (de_r1csproof word pp).
  Proof. pose proof y_zk. pose proof y_kp. pose proof y_pp. pose proof y_ep. pose proof y_lp. unfold de_r1csproof. repeat y. cbn. intuition. Qed.
  Lemma y_nizk : yields (nizk_fits word) (de_nizk word pp).
  Proof. pose proof y_r1csproof. unfold de_nizk. repeat y. unfold nizk_fits. cbn. intuition. Qed.
  Lemma y_entry : yields (fun e => small word (erow e) /\ small word (ecol e)) (de_entry word).
  Proof using word. unfold de_entry. repeat y. cbn. intuition. Qed.
  Lemma y_sparse : yields (sparse_fits word) (de_sparse word).
  Proof using word. pose proof y_entry. unfold de_sparse. repeat y. unfold sparse_fits. cbn. intuition. Qed.
  Lemma y_r1cs : yields (fun x => small word (rc_cons x) /\ small word (rc_vars x) /\ small word (rc_inputs x) /\ sparse_fits word (rc_A x) /\ sparse_fits word (rc_B x) /\ sparse_fits word (rc_C x)) (de_r1cs word).
  Proof using word. pose proof y_sparse. unfold de_r1cs. repeat y. cbn. intuition. Qed.
  Lemma y_instance : yields (instance_fits word) (de_instance word).
  Proof using word.
    clear pp E G. pose proof y_r1cs. unfold de_instance. repeat y. unfold instance_fits. cbn. unfold short in *. rewrite map_length. intuition.
    apply Forall_map. match goal with F : Forall _ _ |- _ => refine (Forall_impl _ _ F) end. cbn beta. intros b Hb. lia.
  Qed.
  Theorem nizk_read_fits b pf : is_bytes b -> dec_nizk word pp b = Ok pf -> nizk_fits word pf.
  Proof. unfold dec_nizk. intros Bb X. destruct (de_nizk word pp b) as [[x r]| |] eqn:Y; try discriminate. injection X as <-. exact (proj1 (y_nizk _ _ _ Bb Y)). Qed.
End Fits.
Theorem instance_read_fits word b ii : is_bytes b -> dec_instance word b = Ok ii -> instance_fits word ii.
Proof. unfold dec_instance. intros Bb X. destruct (de_instance word b) as [[x r]| |] eqn:Y; try discriminate. injection X as <-. exact (proj1 (y_instance word _ _ _ Bb Y)). Qed.
