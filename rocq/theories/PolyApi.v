(** The statements of PropsPoly.v, assembled from the lemmas. *)
From Coq Require Import List Arith ZArith Bool Lia.
From Verif Require Import Base Field Zq Vec MathModel PolyModel PolySpec PolyProofs PolyImp MathProofs.
Import ListNotations.
Local Open Scope fld_scope.

Lemma api_interp3 : forall (K : Fld) (e0 e1 e2 : K), (of_nat 2 : K) <> 0 ->
  exists cs, from_evals [e0; e1; e2] = Ok cs /\ length cs = 3%nat /\
    (peval cs 0 = e0 /\ peval cs 1 = e1 /\ peval cs (of_nat 2) = e2) /\
    forall ds : list K, length ds = 3%nat -> peval ds 0 = e0 -> peval ds 1 = e1 -> peval ds (of_nat 2) = e2 -> ds = cs.
Proof.
  intros K e0 e1 e2 H. destruct (from_evals_3 K e0 e1 e2 H) as (cs & E & L & A & B & C). exists cs.
  split; [exact E|]. split; [exact L|]. split; [repeat split; assumption|].
  intros ds Ld D0 D1 D2. apply interp_unique_3; congruence.
Qed.
Lemma api_interp4 : forall (K : Fld) (e0 e1 e2 e3 : K), (of_nat 2 : K) <> 0 -> (of_nat 3 : K) <> 0 ->
  exists cs, from_evals [e0; e1; e2; e3] = Ok cs /\ length cs = 4%nat /\
    (peval cs 0 = e0 /\ peval cs 1 = e1 /\ peval cs (of_nat 2) = e2 /\ peval cs (of_nat 3) = e3) /\
    forall ds : list K, length ds = 4%nat -> peval ds 0 = e0 -> peval ds 1 = e1 -> peval ds (of_nat 2) = e2 ->
      peval ds (of_nat 3) = e3 -> ds = cs.
Proof.
  intros K e0 e1 e2 e3 H H3. destruct (from_evals_4 K e0 e1 e2 e3 H H3) as (cs & E & L & A & B & C & D). exists cs.
  split; [exact E|]. split; [exact L|]. split; [repeat split; assumption|].
  intros ds Ld D0 D1 D2 D3. apply interp_unique_4; congruence.
Qed.
Lemma api_interp_bad : forall (K : Fld) (es : list K), length es <> 3%nat -> length es <> 4%nat -> from_evals es = Panic.
Proof. intros K [|a [|b [|c [|d [|e t]]]]] H3 H4; cbn in H3, H4; try lia; reflexivity. Qed.
Lemma api_uni_eval : forall (K : Fld) (cs : list K) (x : K), cs <> [] ->
  uni_evaluate cs x = Ok (peval cs x) /\
  eval_at_zero cs = Ok (peval cs 0) /\ eval_at_one cs = peval cs 1.
Proof.
  intros K [|c t] x H; [congruence|]. split; [apply uni_evaluate_ok|]. split.
  - rewrite peval_0. reflexivity.
  - rewrite peval_1. reflexivity.
Qed.
Lemma api_compress : forall (K : Fld) (cs : list K), (2 <= length cs)%nat ->
  (do comp <- compress cs; decompress comp (peval cs 0 + peval cs 1)) = Ok cs.
Proof. intros K [|c0 [|c1 t]] H; cbn in H; try lia. apply compress_decompress. Qed.
Lemma api_decompress : forall (K : Fld) (comp : list K) (hint : K), comp <> [] ->
  exists cs, decompress comp hint = Ok cs /\ length cs = S (length comp) /\
    peval cs 0 + peval cs 1 = hint /\ compress cs = Ok comp.
Proof. intros K [|c t] hint H; [congruence|]. apply decompress_sum. Qed.
Lemma fp_small : (of_nat 2 : Fp) <> 0 /\ (of_nat 3 : Fp) <> 0.
Proof. split; intro H; apply (f_equal (fun z : Fp => zval z)) in H; vm_compute in H; discriminate. Qed.
Lemma poly_case10 : (of_nat 2 : Fp) <> 0 /\ (of_nat 3 : Fp) <> 0 /\
  from_evals [fp 1; fp 15; fp 61; fp 157] = Ok [fp 1; fp 4; fp 7; fp 3] /\
  uni_evaluate [fp 1; fp 4; fp 7; fp 3] (fp 4) = Ok (fp 321).
Proof.
  destruct fp_small as [H2 H3]. split; [exact H2|]. split; [exact H3|]. split.
  - destruct (api_interp4 Fp (fp 1) (fp 15) (fp 61) (fp 157) H2 H3) as (cs & E & _ & _ & U). rewrite E. f_equal. symmetry.
    apply U; [reflexivity|vm_compute; apply zq_eq; reflexivity..].
  - vm_compute. reflexivity.
Qed.
Lemma api_eq_table : forall (K : Fld) (r : list K), exists t, eq_evals_imp r = Ok t /\ length t = (2 ^ length r)%nat /\
  forall i, (i < 2 ^ length r)%nat -> nth i t 0 = chi r i.
Proof.
  intros K r. exists (eq_evals r). split; [apply eq_evals_imp_ok|]. split; [apply eq_evals_length|]. intros i H. apply eq_evals_nth, H.
Qed.
Lemma api_eq_eval : forall (K : Fld) (r rx : list K), length r = length rx ->
  eq_evaluate r rx = Ok (fprod (map2 (fun a b => a * b + (1 - a) * (1 - b)) r rx)) /\
  eq_evaluate r rx = Ok (mle (eq_evals r) rx).
Proof. intros K r rx H. rewrite (eq_evaluate_ok K r rx H), (eq_mle K r rx H). split; reflexivity. Qed.
Lemma api_factored : forall (K : Fld) (r : list K),
  let '(L, R) := compute_factored_evals r in
  (length L * length R = 2 ^ length r)%nat /\
  forall i j, (i < length L)%nat -> (j < length R)%nat -> nth i L 0 * nth j R 0 = chi r (i * length R + j).
Proof.
  intros K r. pose proof (factored_ok K r) as F. destruct (compute_factored_evals r) as [L R].
  destruct F as (HL & HR & HE). assert (HP : (length L * length R = 2 ^ length r)%nat).
  { rewrite HL, HR, <- Nat.pow_add_r. f_equal. assert (length r / 2 <= length r)%nat by (apply Nat.div_le_upper_bound; lia). lia. }
  split; [exact HP|]. intros i j Hi Hj. rewrite <- eq_evals_nth, HE, flat_map_nth; auto. rewrite <- HP. nia.
Qed.
Lemma api_identity : forall (K : Fld) (r : list K),
  identity_evaluate (length r) r = Ok (mle (map of_nat (seq 0 (2 ^ length r))) r).
Proof. intros K r. unfold identity_evaluate. rewrite Nat.eqb_refl. rewrite <- identity_mle. reflexivity. Qed.
Lemma api_mle_meaning : forall (K : Fld) (Z : list K) (r : list K) (x : K),
  length Z = (2 ^ S (length r))%nat ->
  mle Z (x :: r) = (1 - x) * mle (firstn (2 ^ length r) Z) r + x * mle (skipn (2 ^ length r) Z) r /\
  mle Z [] = nth 0 Z 0.
Proof. intros K Z r x H. split; [|apply mle_nil]. rewrite mle_cons, (mle_firstn K Z r) by lia. reflexivity. Qed.
Lemma api_bind_all : forall (K : Fld) (Z rs : list K), length Z = (2 ^ length rs)%nat ->
  exists v, (do d <- dense_new Z; dense_evaluate d rs) = Ok v /\
    (do d <- dense_new Z;
     do d <- fold_left (fun d r => do d <- d; bound_poly_var_top d r) rs (Ok d);
     dense_index d 0) = Ok v.
Proof.
  intros K Z rs H. exists (mle Z rs). split; [apply evaluate_ok, H|].
  destruct (dense_new_ok K Z _ H) as (-> & Hok & HL). cbn [bind].
  destruct (bind_all_ok K rs _ Hok eq_refl) as (d' & E & EV). unfold bind_all in E. rewrite E. cbn [bind]. rewrite EV, HL. reflexivity.
Qed.
Lemma api_bound : forall (K : Fld) (Z r : list K), length Z = (2 ^ length r)%nat ->
  exists LZ, dense_bound (MkDense (length r) (2 ^ length r) Z) (fst (compute_factored_evals r)) = Ok LZ /\
    dot LZ (snd (compute_factored_evals r)) = mle Z r.
Proof. intros K Z r H. destruct (bound_dot K Z r H) as (LZ & E & _ & D & _). exists LZ. split; assumption. Qed.
Lemma api_merge : forall (K : Fld) (polys : list (dense K)) (c r : list K),
  polys <> [] -> length c = Nat.log2_up (length polys) ->
  (forall d, In d polys -> length (dZ d) = (2 ^ length r)%nat) ->
  exists d, dense_merge polys = Ok d /\
    dZ d = pad_pow2 (concat (map dZ polys)) /\
    dense_evaluate d (c ++ r) = Ok (mle (pad_pow2 (map (fun d => mle (dZ d) r) polys)) c).
Proof.
  intros K polys c r Hne Hc H. destruct (merge_ok K polys _ Hne H) as (d & E & Hok & Hn & HZ & HL).
  exists d. split; [exact E|]. split; [exact HZ|].
  assert (HZL : length (dZ d) = (2 ^ length (c ++ r))%nat).
  { rewrite <- HL, (live_length K d Hok). destruct Hok as [H1 _]. rewrite H1, Hn, app_length, Hc. reflexivity. }
  unfold dense_evaluate. rewrite app_length, Hn, Hc, Nat.eqb_refl. rewrite eq_evals_length, HZL, Nat.eqb_refl.
  unfold compute_dotproduct. rewrite eq_evals_length, HZL, Nat.eqb_refl. rewrite <- mle_dot by exact HZL.
  rewrite HZ, (merge_mle K (map dZ polys) c r).
  - rewrite map_map. reflexivity.
  - destruct polys; [congruence|discriminate].
  - rewrite map_length. exact Hc.
  - intros P HP. apply in_map_iff in HP. destruct HP as (q & <- & Hq). apply H, Hq.
Qed.
Lemma api_extend_split : forall (K : Fld) (a b : list K) k, length a = (2 ^ k)%nat -> length b = (2 ^ k)%nat ->
  exists da db d, dense_new a = Ok da /\ dense_new b = Ok db /\ dense_new (a ++ b) = Ok d /\
    dense_extend da db = Ok d /\ dense_split d (2 ^ k) = Ok (da, db).
Proof.
  intros K a b k Ha Hb. exists (MkDense k (2 ^ k) a), (MkDense k (2 ^ k) b), (MkDense (S k) (2 ^ S k) (a ++ b)).
  split; [apply dense_new_ok, Ha|]. split; [apply dense_new_ok, Hb|]. split.
  - apply dense_new_ok. rewrite app_length, Ha, Hb, pow2_S. reflexivity.
  - split; [apply extend_ok; assumption|apply split_ok; assumption].
Qed.
Lemma api_log_pow : forall e, (0 <= e < 64)%Z -> (do x <- pow2_word e; log_2_word x) = Ok e /\ pow2_word e = Ok (2 ^ e)%Z.
Proof. intros e H. rewrite (pow2_word_ok e H). cbn [bind]. split; [apply log_2_word_pow, H|reflexivity]. Qed.
Lemma api_nat_model : forall x nb : nat, (Z.of_nat x < 2 ^ 64)%Z -> (nb <= 64)%nat ->
  log_2_word (Z.of_nat x) = match log_2 x with Ok e => Ok (Z.of_nat e) | Err e => Err e | Panic => Panic end /\
  get_bits_word (Z.of_nat x) nb = Ok (get_bits x nb) /\
  ((Z.of_nat (2 ^ nb) < 2 ^ 64)%Z -> pow2_word (Z.of_nat nb) = Ok (Z.of_nat (pow2 nb))).
Proof.
  intros x nb Hx Hn. split; [apply log_2_agree, Hx|]. split; [apply get_bits_agree, Hn|]. intro H.
  rewrite Nat2Z.inj_pow in H. change (Z.of_nat 2) with 2%Z in H. apply Z.pow_lt_mono_r_iff in H; try lia.
  rewrite pow2_word_ok by lia. unfold pow2. rewrite Nat2Z.inj_pow. reflexivity.
Qed.
