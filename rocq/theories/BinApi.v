From Coq Require Import String ZArith List Bool Lia.
From Verif Require Import Base Primes Field Zq Limb LimbSpec LimbInt Vec MathModel PolyModel PolyProofs R1csModel CommitModel SigmaModel SigmaApi SumModel NizkModel NizkApi TsSpec TsEff ReadModel ReadSpec ReadProofs BinModel BinSpec BinProofs.
Import ListNotations.
Local Open Scope Z_scope.

(** * Bytes after the end *)
Definition stable {A} (de : list Z -> res (A * list Z)) : Prop := forall s a r t, de s = Ok (a, r) -> de (s ++ t) = Ok (a, r ++ t).
Lemma st_bind {A B} (de : list Z -> res (A * list Z)) (f : A -> list Z -> res (B * list Z)) :
  stable de -> (forall a, stable (f a)) -> stable (fun s => do (a, s) <- de s; f a s).
Proof.
  intros D F s b r t X. destruct (de s) as [[a s']| |] eqn:Y; try discriminate. cbn [bind] in X. rewrite (D _ _ _ t Y). cbn [bind]. apply F, X.
Qed.
Lemma st_ret {A} (a : A) : stable (fun s => Ok (a, s)).
Proof. intros s b r t X. injection X as <- <-. reflexivity. Qed.
Lemma st_exact k : stable (read_exact k).
Proof.
  intros s a r t X. unfold read_exact in *. destruct (Nat.leb_spec k (length s)) as [L|]; [|discriminate]. injection X as <- <-. rewrite app_length.
  destruct (Nat.leb_spec k (length s + length t)); [|lia]. rewrite firstn_app, skipn_app. replace (k - length s)%nat with 0%nat by lia. cbn [firstn skipn]. rewrite app_nil_r. reflexivity.
Qed.
Lemma st_u64 : stable read_u64.
Proof. apply (st_bind (read_exact 8) (fun b s => Ok (of_le b, s))); [apply st_exact|]. intro b. apply st_ret. Qed.
Lemma st_many {A} (de : list Z -> res (A * list Z)) : stable de -> forall k, stable (read_many de k).
Proof.
  intros D k. induction k as [|k IH]; [exact (st_ret [])|]. apply (st_bind de (fun a s => do (l, s) <- read_many de k s; Ok (a :: l, s))); [exact D|].
  intro a. apply (st_bind (read_many de k) (fun l s => Ok (a :: l, s))); [exact IH|]. intro l. apply st_ret.
Qed.
Section St.
  Context {G : Mod Fp} {E : Enc G}.
  Variables (word : Z) (pp : list Z -> option E).
  Lemma st_usize : stable (de_usize word).
  Proof.
    apply (st_bind read_u64 (fun k s => if k <? word then Ok (Z.to_nat k, s) else Err OtherErr)); [exact st_u64|]. intros k s a r t X. destruct (k <? word); [|discriminate]. injection X as <- <-. reflexivity.
  Qed.
  Lemma st_vec {A} (de : list Z -> res (A * list Z)) : stable de -> stable (de_vec word de).
  Proof. intro D. apply (st_bind (de_usize word) (fun k s => read_many de k s)); [exact st_usize|]. intro k. apply st_many, D. Qed.
  Lemma st_u8 : stable de_u8.
  Proof. intros [|x s] a r t X; [discriminate|]. injection X as <- <-. reflexivity. Qed.
  Lemma st_scalar : stable (de_scalar word).
  Proof.
    apply (st_bind (de_usize word) (fun k s => assert (Nat.leb 32 k); assert (Nat.leb 32 (length s)); Ok (fp (of_le (firstn 32 s)), skipn 32 s))); [exact st_usize|].
    intros k s a r t X. destruct (Nat.leb 32 k); [|discriminate]. pose proof (st_exact 32 s) as Q. unfold read_exact in Q.
    destruct (Nat.leb 32 (length s)); [|discriminate]. injection X as <- <-. specialize (Q _ _ t eq_refl). destruct (Nat.leb 32 (length (s ++ t))); [|discriminate]. assert (Q1 := f_equal (fun x => match x with Ok (a, _) => a | _ => [] end) Q). assert (Q2 := f_equal (fun x => match x with Ok (_, a) => a | _ => [] end) Q). cbv beta iota in Q1, Q2. rewrite Q1, Q2. reflexivity.
  Qed.
  Lemma st_point : stable (de_point word pp).
  Proof.
    apply (st_bind (de_vec word de_u8) (fun b s => match pp b with Some P => Ok (P, s) | None => Err OtherErr end)); [apply st_vec, st_u8|].
    intros b s a r t X. destruct (pp b); [|discriminate]. injection X as <- <-. reflexivity.
  Qed.
  Hint Resolve st_usize st_u8 st_scalar st_point st_ret st_vec : stb.
  Ltac st := repeat first [solve [auto with stb] | eapply (st_bind _ (fun a s => _)); [|intro] | eapply @st_bind; [|intro]].
  Lemma st_kp : stable (de_kp word pp). Proof. unfold de_kp. st. Qed.
  Lemma st_ep : stable (de_ep word pp). Proof. unfold de_ep. st. Qed.
  Lemma st_pp : stable (de_pp word pp). Proof. unfold de_pp. st. Qed.
  Lemma st_dp : stable (de_dp word pp). Proof. unfold de_dp. st. Qed.
  Lemma st_lp : stable (de_lp word pp). Proof. unfold de_lp. st. Qed.
  Hint Resolve st_kp st_ep st_pp st_dp st_lp : stb.
  Lemma st_zk : stable (de_zk word pp). Proof. unfold de_zk. st. Qed.
  Hint Resolve st_zk : stb.
  Lemma st_r1csproof : stable (de_r1csproof word pp). Proof. unfold de_r1csproof. st. Qed.
  Hint Resolve st_r1csproof : stb.
  Lemma st_nizk : stable (de_nizk word pp). Proof. unfold de_nizk. st. Qed.
  Lemma st_entry : stable (de_entry word). Proof. unfold de_entry. st. Qed.
  Hint Resolve st_entry : stb.
  Lemma st_sparse : stable (de_sparse word). Proof. unfold de_sparse. st. Qed.
  Hint Resolve st_sparse : stb.
  Lemma st_r1cs : stable (de_r1cs word). Proof. unfold de_r1cs. st. Qed.
  Hint Resolve st_r1cs : stb.
  Lemma st_instance : stable (de_instance word). Proof. unfold de_instance. st. Qed.

  Theorem nizk_trailing b t pf : dec_nizk word pp b = Ok pf -> dec_nizk word pp (b ++ t) = Ok pf.
  Proof.
    unfold dec_nizk. intro X. destruct (de_nizk word pp b) as [[x r]| |] eqn:Y; try discriminate. injection X as <-. rewrite (st_nizk _ _ _ t Y). reflexivity.
  Qed.
  Theorem instance_trailing b t ii : dec_instance word b = Ok ii -> dec_instance word (b ++ t) = Ok ii.
  Proof.
    unfold dec_instance. intro X. destruct (de_instance word b) as [[x r]| |] eqn:Y; try discriminate. injection X as <-. rewrite (st_instance _ _ _ t Y). reflexivity.
  Qed.
End St.

(** * Round trip and aliases *)
Section Rt.
  Context {G : Mod Fp} {E : Enc G}.
  Variable word : Z.
  Hypothesis W1 : 33 < word.
  Hypothesis W2 : word <= 2 ^ 64.
  Variables (pb : E -> list Z) (pp : list Z -> option E).
  Hypothesis Pt : point_codec word pb pp.
  Theorem nizk_roundtrip pf t : nizk_fits word pf -> dec_nizk word pp (ser_nizk pb pf ++ t) = Ok pf.
  Proof. intro F. unfold dec_nizk. rewrite (rt_nizk word ltac:(lia) W2 pb pp Pt pf t F). reflexivity. Qed.
  Theorem nizk_injective pf pf' : nizk_fits word pf -> nizk_fits word pf' -> ser_nizk pb pf = ser_nizk pb pf' -> pf = pf'.
  Proof. intros F F' X. pose proof (nizk_roundtrip pf [] F) as Y. rewrite X, (nizk_roundtrip pf' [] F') in Y. congruence. Qed.
  Theorem instance_roundtrip ii t : instance_fits word ii -> dec_instance word (ser_instance ii ++ t) = Ok ii.
  Proof. intro F. unfold dec_instance. rewrite (rt_instance word ltac:(lia) W2 ii t F). reflexivity. Qed.

  (** any announced length from 32 on, any number below 2^256 *)
  Lemma scalar_alias k x t : 32 <= k < word -> 0 <= x < 2 ^ 256 -> de_scalar word (le_string 8 k ++ le_string 32 x ++ t) = Ok (fp x, t).
  Proof.
    intros Hk Hx. unfold de_scalar, de_usize. rewrite read_u64_app by (unfold ReadSpec.u64; lia). cbn [bind]. destruct (Z.ltb_spec k word); [|lia]. cbn [bind].
    destruct (Nat.leb_spec 32 (Z.to_nat k)); [|lia]. rewrite app_length, le_string_length. destruct (Nat.leb_spec 32 (32 + length t)); [|lia].
    rewrite firstn_app, skipn_app, le_string_length, firstn_all2, skipn_all2 by (rewrite le_string_length; lia). change (32 - 32)%nat with 0%nat. cbn [firstn skipn app]. rewrite app_nil_r.
    rewrite of_le_string, Z.mod_small by exact Hx. reflexivity.
  Qed.
  Lemma many_app {A} (de : list Z -> res (A * list Z)) j k s l1 s1 l2 s2 : read_many de j s = Ok (l1, s1) -> read_many de k s1 = Ok (l2, s2) -> read_many de (j + k) s = Ok (l1 ++ l2, s2).
  Proof.
    revert s l1. induction j as [|j IH]; intros s l1 X Y; cbn [read_many Nat.add] in *; [injection X as <- <-; exact Y|].
    destruct (de s) as [[a s']| |]; try discriminate. cbn [bind] in *. destruct (read_many de j s') as [[l' s'']| |] eqn:Q; try discriminate. cbn [bind] in X. injection X as <- <-.
    rewrite (IH _ _ Q Y). reflexivity.
  Qed.
  Theorem nizk_alias rp rx l y k x : nizk_fits word (MkNizk rp rx (l ++ [y])) -> 32 <= k < word -> 0 <= x < 2 ^ 256 -> y = fp x ->
    dec_nizk word pp (ser_r1csproof pb rp ++ ser_vec ser_scalar rx ++ ser_usize (S (length l)) ++ flat_map ser_scalar l ++ le_string 8 k ++ le_string 32 x) = Ok (MkNizk rp rx (l ++ [y])).
  Proof.
    intros F Hk Hx ->. 
    assert (R : forall t, de_r1csproof word pp (ser_r1csproof pb rp ++ t) = Ok (rp, t)).
    { intro t. apply (rt_r1csproof word ltac:(lia) W2 pb pp Pt rp t). destruct F as (F1 & F2 & F3 & F4 & F5 & _). repeat (split; [assumption|]). assumption. }
    destruct F as (_ & _ & _ & _ & _ & F6 & F7). cbn [nz_rx nz_ry] in *. unfold dec_nizk, de_nizk. rewrite R. cbn [bind].
    rewrite (rt_scalarv word ltac:(lia) W2) by exact F6. cbn [bind]. unfold de_vec.
    unfold short in F7. rewrite app_length in F7. cbn [length] in F7. rewrite Nat.add_1_r in F7. rewrite (rt_usize word W2) by exact F7. cbn [bind].
    replace (S (length l)) with (length l + 1)%nat by lia.
    erewrite many_app; [reflexivity| |].
    - apply (rt_many (fun _ => True)); [exact (rt_scalar word ltac:(lia) W2)|]. apply Forall_forall. auto.
    - cbn [read_many]. rewrite <- (app_nil_r (le_string 32 x)). rewrite scalar_alias by assumption. reflexivity.
  Qed.
End Rt.
