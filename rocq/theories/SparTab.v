(** The tables of the honest prover: addresses, timestamps, dereferenced values, fingerprints. *)
From Coq Require Import String List Arith Lia Bool Field Ring Permutation.
From Verif Require Import Base ListAux Field Vec MathModel PolyModel PolySpec PolyProofs PolyImp CommitModel CommitSpec SigmaModel SumModel R1csModel ProdModel ProdSpec ProdProofs ProdBatch SparModel SparSpec SparMem SparOpen SparNet.
Import ListNotations.

Section Tab.
  Context {K : Fld}.
  Local Open Scope fld_scope.
  Add Field Kst : (fth K).

  Lemma dense_new_dt m (Z : list K) : length Z = (2 ^ m)%nat -> dense_new Z = Ok (dt m Z).
  Proof. intro L. destruct (dense_new_ok K Z m L) as (X & _ & _). exact X. Qed.
  Lemma mapM_dt {A} m (f : A -> list K) (l : list A) : (forall x, In x l -> length (f x) = (2 ^ m)%nat) -> mapM (fun x => dense_new (f x)) l = Ok (map (dt m) (map f l)).
  Proof. intro L. rewrite map_map. apply mapM_ok. intros x I. apply dense_new_dt, L, I. Qed.

  (** ** fingerprints *)
  Definition htab (rh rm : K) (A V T : list K) : list K := map (fun x => hash3 rh rm (fst (fst x)) (snd (fst x)) (snd x)) (combine (combine A V) T).
  Lemma htab_length rh rm A V T : length V = length A -> length T = length A -> length (htab rh rm A V T) = length A.
  Proof. intros L1 L2. unfold htab. rewrite map_length, !combine_length. lia. Qed.
  Lemma htab_nth rh rm A V T i : length V = length A -> length T = length A -> (i < length A)%nat ->
    nth i (htab rh rm A V T) 0 = hash3 rh rm (nth i A 0) (nth i V 0) (nth i T 0).
  Proof.
    intros L1 L2 Hi. unfold htab. rewrite (nth_indep _ 0 (hash3 rh rm 0 0 0)) by (rewrite map_length, !combine_length; lia).
    change (hash3 rh rm 0 0 0) with ((fun x => hash3 rh rm (fst (fst x)) (snd (fst x)) (snd x)) (0 : K, 0 : K, 0 : K)). rewrite map_nth.
    rewrite combine_nth by (rewrite combine_length; lia). rewrite combine_nth by lia. reflexivity.
  Qed.
  Lemma combine_app {A B} (a a' : list A) (b b' : list B) : length a = length b -> combine (a ++ a') (b ++ b') = combine a b ++ combine a' b'.
  Proof. revert b. induction a as [|x a IH]; intros [|y b] L; try discriminate L; [reflexivity|]. cbn [app combine]. rewrite IH by (cbn in L; lia). reflexivity. Qed.
  Lemma htab_app rh rm A V T A' V' T' : length V = length A -> length T = length A -> htab rh rm (A ++ A') (V ++ V') (T ++ T') = htab rh rm A V T ++ htab rh rm A' V' T'.
  Proof. intros L1 L2. unfold htab. rewrite (combine_app A), (combine_app (combine A V)), map_app by (rewrite ?combine_length; lia). reflexivity. Qed.
  Lemma mle_htab rh rm (A V T r : list K) : length A = (2 ^ length r)%nat -> length V = length A -> length T = length A ->
    mle (htab rh rm A V T) r = hash3 rh rm (mle A r) (mle V r) (mle T r).
  Proof.
    intros LA L1 L2.
    assert (E0 : mle (htab rh rm A V T) r = mle (tab (2 ^ length r) (fun i => 1 * nth i (tab (2 ^ length r) (fun i => (rh * rh) * nth i T 0 + rh * nth i V 0)) 0 + 1 * nth i (tab (2 ^ length r) (fun i => 1 * nth i A 0 + (- (1)) * nth i (tab (2 ^ length r) (fun _ => rm)) 0)) 0)) r).
    { apply mle_ext. intros i Hi. rewrite htab_nth, !nth_tab by lia. unfold hash3. ring. }
    rewrite E0, !mle_lin, mle_const. unfold hash3. ring.
  Qed.

  (** ** timestamps *)
  Definition zeros (n : nat) : list nat := repeat 0%nat n.
  Lemma nth_zeros n a : nth a (zeros n) 0%nat = 0%nat.
  Proof. unfold zeros. destruct (Nat.lt_ge_cases a (length (repeat 0%nat n))) as [L|L]; [apply (repeat_spec n 0%nat), nth_In, L|apply nth_overflow, L]. Qed.

  Lemma ts_insts_total (insts : list (list nat)) cells : (forall x, In x (concat insts) -> (x < cells)%nat) ->
    exists rts audit, ts_insts insts (zeros cells) = Ok (rts, audit) /\ map (@length nat) rts = map (@length nat) insts /\
      concat rts = map (earlier (concat insts)) (seq 0 (length (concat insts))) /\ audit = map (total (concat insts)) (seq 0 cells).
  Proof.
    intro B. assert (Lz : length (zeros cells) = cells) by apply repeat_length.
    pose proof (ts_insts_ok insts (zeros cells)) as X. rewrite ts_ops_ok in X by (rewrite Lz; exact B).
    destruct (ts_insts insts (zeros cells)) as [[rts audit]| |] eqn:Q; [|discriminate X..]. cbn [bind fst snd] in X. injection X as X1 X2.
    exists rts, audit. split; [reflexivity|]. destruct (ts_insts_len _ _ _ Q) as [L1 _]. split; [exact L1|]. split.
    - rewrite X1. apply map_ext. intro j. unfold rd. rewrite nth_zeros. reflexivity.
    - rewrite X2, Lz. apply map_ext. intro a. rewrite nth_zeros. reflexivity.
  Qed.

  Definition nats (l : list nat) : list K := map of_nat l.
  (** what [at_new] makes of three (or any number of) access sequences of the same length *)
  Lemma at_new_ok (addrs : list (list nat)) m c : (forall a, In a addrs -> length a = (2 ^ m)%nat) -> (forall a x, In a addrs -> In x a -> (x < 2 ^ c)%nat) ->
    exists rts audit, map (@length nat) rts = map (@length nat) addrs /\
      concat rts = map (earlier (concat addrs)) (seq 0 (length (concat addrs))) /\ audit = map (total (concat addrs)) (seq 0 (2 ^ c)) /\
      at_new (2 ^ c) (2 ^ m) addrs = Ok (MkAT addrs (map (dt m) (map nats addrs)) (map (dt m) (map nats rts)) (dt c (nats audit))).
  Proof.
    intros LA B. destruct (ts_insts_total addrs (2 ^ c)) as (rts & audit & X & L & E1 & E2).
    { intros x I. apply in_concat in I. destruct I as (a & I1 & I2). exact (B a x I1 I2). }
    exists rts, audit. split; [exact L|]. split; [exact E1|]. split; [exact E2|]. unfold at_new. fold (zeros (2 ^ c)). rewrite X. cbn [bind fst snd].
    assert (F : forallb (fun item => Nat.eqb (length item) (2 ^ m)) addrs = true) by (apply forallb_forall; intros a I; apply Nat.eqb_eq, LA, I). rewrite F.
    change (@dense_from_usize K) with (fun x => dense_new (nats x)). cbn beta. rewrite (mapM_dt m nats addrs) by (intros a I; unfold nats; rewrite map_length; apply LA, I). cbn [bind].
    rewrite (mapM_dt m nats rts).
    2:{ intros a I. unfold nats. rewrite map_length. assert (Q : In (length a) (map (@length nat) addrs)) by (rewrite <- L; apply in_map, I).
        apply in_map_iff in Q. destruct Q as (b & <- & I'). apply LA, I'. }
    cbn [bind]. rewrite (dense_new_dt c) by (unfold nats; rewrite map_length, E2, map_length, seq_length; reflexivity). reflexivity.
  Qed.

  Definition deref1 (mem : list K) (addr : list nat) : list K := map (fun a => nth a mem 0) addr.
  Lemma at_deref_ok t (addrs : list (list nat)) (mem : list K) m : at_usize t = addrs -> length (at_addr t) = length addrs ->
    (forall a, In a addrs -> length a = (2 ^ m)%nat) -> (forall a x, In a addrs -> In x a -> (x < length mem)%nat) ->
    at_deref t mem = Ok (map (dt m) (map (deref1 mem) addrs)).
  Proof.
    intros E1 E2 LA B. unfold at_deref. rewrite E1, E2.
    rewrite (mapM_ok _ (fun i => dt m (deref1 mem (nth i addrs [])))).
    - f_equal. apply (list_ext _ _ (dt m [])); [rewrite !map_length, seq_length; reflexivity|]. intros i Hi. rewrite map_length, seq_length in Hi.
      rewrite (nth_indep _ _ (dt m (deref1 mem (nth 0 addrs [])))) by (rewrite map_length, seq_length; exact Hi).
      rewrite (map_nth (fun i => dt m (deref1 mem (nth i addrs [])))), seq_nth by exact Hi. cbn [Nat.add].
      rewrite map_map. rewrite (nth_indep _ _ (dt m (deref1 mem []))) by (rewrite map_length; exact Hi). rewrite (map_nth (fun x => dt m (deref1 mem x))). reflexivity.
    - intros i Hi. apply in_seq in Hi. rewrite (idx_nth _ i []) by lia. cbn [bind]. unfold deref_mem.
      assert (I : In (nth i addrs []) addrs) by (apply nth_In; lia).
      rewrite (mapM_ok _ (fun a => nth a mem 0)) by (intros a Ha; apply idx_nth, (B _ _ I Ha)). cbn [bind]. fold (deref1 mem (nth i addrs [])). apply dense_new_dt. unfold deref1. rewrite map_length. apply LA, I.
  Qed.

  (** ** the circuits *)
  Lemma hash_cells_ok (table : list K) (ts : nat -> res K) (T : list K) rh rm c : length table = (2 ^ c)%nat -> length T = (2 ^ c)%nat -> (forall i, (i < 2 ^ c)%nat -> ts i = Ok (nth i T 0)) ->
    hash_cells table ts rh rm = Ok (dt c (htab rh rm (nats (seq 0 (2 ^ c))) table T)).
  Proof.
    intros LT LT' HT. unfold hash_cells. rewrite LT. assert (Ls : length (nats (seq 0 (2 ^ c))) = (2 ^ c)%nat) by (unfold nats; rewrite map_length, seq_length; reflexivity).
    rewrite (mapM_ok _ (fun i => nth i (htab rh rm (nats (seq 0 (2 ^ c))) table T) 0)).
    - cbn [bind]. change (map (fun i => nth i (htab rh rm (nats (seq 0 (2 ^ c))) table T) 0) (seq 0 (2 ^ c))) with (tab (2 ^ c) (fun i => nth i (htab rh rm (nats (seq 0 (2 ^ c))) table T) 0)).
      assert (LH : length (htab rh rm (nats (seq 0 (2 ^ c))) table T) = (2 ^ c)%nat) by (rewrite htab_length; congruence).
      replace (tab (2 ^ c) (fun i => nth i (htab rh rm (nats (seq 0 (2 ^ c))) table T) 0)) with (htab rh rm (nats (seq 0 (2 ^ c))) table T); [apply dense_new_dt, LH|].
      apply (list_ext _ _ 0); [rewrite tab_length; exact LH|]. intros i Hi. rewrite nth_tab by lia. reflexivity.
    - intros i Hi. apply in_seq in Hi. rewrite (idx_nth table i 0) by lia. cbn [bind]. rewrite HT by lia. cbn [bind]. rewrite htab_nth by lia.
      unfold nats. rewrite (nth_map0 _ _ _ 0%nat _) by (rewrite seq_length; lia). rewrite seq_nth by lia. reflexivity.
  Qed.
  Lemma hash_ops_ok (A V T : list K) shift rh rm m : length A = (2 ^ m)%nat -> length V = (2 ^ m)%nat -> length T = (2 ^ m)%nat ->
    hash_ops (dt m A) (dt m V) (dt m T) shift rh rm = Ok (dt m (htab rh rm A V (map (fun t => t + shift) T))).
  Proof.
    intros LA LV LT. unfold hash_ops. cbn [dlen dt]. rewrite Nat.eqb_refl. assert (LT' : length (map (fun t => t + shift) T) = length A) by (rewrite map_length; congruence).
    rewrite (mapM_ok _ (fun i => nth i (htab rh rm A V (map (fun t => t + shift) T)) 0)).
    - cbn [bind]. change (map (fun i => nth i (htab rh rm A V (map (fun t => t + shift) T)) 0) (seq 0 (2 ^ m))) with (tab (2 ^ m) (fun i => nth i (htab rh rm A V (map (fun t => t + shift) T)) 0)).
      assert (LH : length (htab rh rm A V (map (fun t => t + shift) T)) = (2 ^ m)%nat) by (rewrite htab_length; congruence).
      replace (tab (2 ^ m) (fun i => nth i (htab rh rm A V (map (fun t => t + shift) T)) 0)) with (htab rh rm A V (map (fun t => t + shift) T)); [apply dense_new_dt, LH|].
      apply (list_ext _ _ 0); [rewrite tab_length; exact LH|]. intros i Hi. rewrite nth_tab by lia. reflexivity.
    - intros i Hi. apply in_seq in Hi. unfold dense_index, dt. cbn [dZ]. rewrite !(idx_nth _ i 0) by lia. cbn [bind]. rewrite htab_nth by lia.
      rewrite (nth_map0 _ _ _ 0 _) by lia. reflexivity.
  Qed.

  Fixpoint map3 {A B C D} (f : A -> B -> C -> D) (a : list A) (b : list B) (c : list C) : list D :=
    match a, b, c with x :: a', y :: b', z :: c' => f x y z :: map3 f a' b' c' | _, _, _ => [] end.
  Lemma map3_nth {A B C D} (f : A -> B -> C -> D) da db dc dd a : forall b c i, length b = length a -> length c = length a -> (i < length a)%nat ->
    nth i (map3 f a b c) dd = f (nth i a da) (nth i b db) (nth i c dc).
  Proof.
    induction a as [|x a IH]; intros [|y b] [|z c] i L1 L2 Hi; cbn in L1, L2, Hi; try lia. destruct i; [reflexivity|]. cbn [map3 nth]. apply IH; lia.
  Qed.
  Lemma map3_length {A B C D} (f : A -> B -> C -> D) a : forall b c, length b = length a -> length c = length a -> length (map3 f a b c) = length a.
  Proof. induction a as [|x a IH]; intros [|y b] [|z c] L1 L2; cbn in L1, L2; try lia; [reflexivity|]. cbn [map3 length]. rewrite IH by lia. reflexivity. Qed.

  Definition ops_tab rh rm shift (A V T : list (list K)) : list (list K) := map3 (fun a v t => htab rh rm a v (map (fun x => x + shift) t)) A V T.
  Lemma ops_layer rh rm shift (A V T : list (list K)) m : all_len m A -> all_len m V -> all_len m T -> length V = length A -> length T = length A ->
    mapM (fun i => do a <- idx (map (dt m) A) i; do v <- idx (map (dt m) V) i; do t <- idx (map (dt m) T) i; hash_ops a v t shift rh rm) (seq 0 (length (map (dt m) A))) =
      Ok (map (dt m) (ops_tab rh rm shift A V T)) /\ all_len m (ops_tab rh rm shift A V T) /\ length (ops_tab rh rm shift A V T) = length A.
  Proof.
    intros LA LV LT L1 L2. unfold ops_tab. split; [|split].
    - rewrite map_length. rewrite (mapM_ok _ (fun i => dt m (nth i (ops_tab rh rm shift A V T) []))).
      + f_equal. apply (list_ext _ _ (dt m [])); [rewrite !map_length, seq_length, map3_length by assumption; reflexivity|]. intros i Hi. rewrite map_length, seq_length in Hi.
        rewrite (nth_indep _ _ (dt m (nth 0 (ops_tab rh rm shift A V T) []))) by (rewrite map_length, seq_length; exact Hi).
        rewrite (map_nth (fun i => dt m (nth i (ops_tab rh rm shift A V T) []))), seq_nth by exact Hi. cbn [Nat.add]. rewrite map_nth. reflexivity.
      + intros i Hi. apply in_seq in Hi. rewrite !(idx_nth _ i (dt m [])) by (rewrite map_length; lia). cbn [bind]. rewrite !map_nth.
        rewrite hash_ops_ok; [|apply LA, nth_In; lia|apply LV, nth_In; lia|apply LT, nth_In; lia]. unfold ops_tab. rewrite (map3_nth _ [] [] [] []) by lia. reflexivity.
    - intros P I. apply (In_nth _ _ []) in I. destruct I as (i & Hi & <-). rewrite map3_length in Hi by assumption. rewrite (map3_nth _ [] [] []) by lia.
      rewrite htab_length; [apply LA, nth_In; lia| |rewrite map_length].
      + rewrite (LA (nth i A [])), (LV (nth i V [])) by (apply nth_In; lia). reflexivity.
      + rewrite (LA (nth i A [])), (LT (nth i T [])) by (apply nth_In; lia). reflexivity.
    - apply map3_length; assumption.
  Qed.
  Lemma pcs_new n (Zs : list (list K)) : all_len (S n) Zs -> exists cs, mapM pc_new (map (dt (S n)) Zs) = Ok cs /\ Forall2 (circ_of (S n)) Zs cs.
  Proof.
    intro L. induction Zs as [|Z Zs IH]; [exists []; split; [reflexivity|constructor]|].
    destruct (dt_ok (S n) Z (L Z (or_introl eq_refl))) as (O & N & LV). destruct (pc_new_ok (dt (S n) Z) n O N) as (c & Ec & C). rewrite LV in C.
    destruct IH as (cs & Es & Cs); [intros P I; apply L; right; exact I|]. exists (c :: cs). cbn [map mapM]. rewrite Ec. cbn [bind]. rewrite Es. split; [reflexivity|constructor; assumption].
  Qed.

  Lemma layers_ok (table : list K) t (A V T : list (list K)) (U : list K) rh rm n c : length table = (2 ^ S c)%nat -> length U = (2 ^ S c)%nat ->
    at_is t (S n) (S c) A T U -> all_len (S n) A -> all_len (S n) V -> all_len (S n) T -> length A = 3%nat -> length V = 3%nat -> length T = 3%nat ->
    let ids := nats (seq 0 (2 ^ S c)) in
    exists p, layers_new table t (map (dt (S n)) V) rh rm = Ok p /\
      pl_is p n c (htab rh rm ids table (repeat 0 (2 ^ S c))) (htab rh rm ids table U) (ops_tab rh rm 0 A V T) (ops_tab rh rm 1 A V T).
  Proof.
    intros LT LU (E1 & E2 & E3) LA LV LTs L1 L2 L3 ids. unfold layers_new, build_hash_layer. rewrite E1, E2, E3.
    rewrite (hash_cells_ok table _ (repeat 0 (2 ^ S c)) rh rm (S c)) by (first [assumption|apply repeat_length|intros i Hi; rewrite nth_repeat; reflexivity]). cbn [bind].
    rewrite (hash_cells_ok table _ U rh rm (S c)) by (first [assumption|intros i Hi; unfold dense_index, dt; cbn [dZ]; apply idx_nth; lia]). cbn [bind].
    destruct (ops_layer rh rm 0 A V T (S n) LA LV LTs ltac:(congruence) ltac:(congruence)) as (X1 & X2 & X3). rewrite X1. cbn [bind].
    destruct (ops_layer rh rm 1 A V T (S n) LA LV LTs ltac:(congruence) ltac:(congruence)) as (Y1 & Y2 & Y3). rewrite Y1. cbn [bind]. fold ids.
    assert (Li : length ids = (2 ^ S c)%nat) by (unfold ids, nats; rewrite map_length, seq_length; reflexivity).
    set (I0 := htab rh rm ids table (repeat 0 (2 ^ S c))). set (A0 := htab rh rm ids table U).
    assert (LI0 : length I0 = (2 ^ S c)%nat) by (unfold I0; rewrite htab_length; rewrite ?repeat_length; congruence).
    assert (LA0 : length A0 = (2 ^ S c)%nat) by (unfold A0; rewrite htab_length; congruence).
    destruct (dt_ok (S c) I0 LI0) as (O & N & LL). destruct (pc_new_ok (dt (S c) I0) c O N) as (pi & -> & Cpi). rewrite LL in Cpi. cbn [bind].
    destruct (pcs_new n _ X2) as (pr & -> & Cpr). cbn [bind]. destruct (pcs_new n _ Y2) as (pw & -> & Cpw). cbn [bind].
    destruct (dt_ok (S c) A0 LA0) as (O' & N' & LL'). destruct (pc_new_ok (dt (S c) A0) c O' N') as (pa & -> & Cpa). rewrite LL' in Cpa. cbn [bind].
    eexists. split; [reflexivity|]. unfold pl_is. cbn [pl_init pl_audit pl_read pl_write]. rewrite X3, Y3.
    split; [exact Cpi|]. split; [exact Cpa|]. split; [exact Cpr|]. split; [exact Cpw|]. split; [exact L1|]. split; [exact L1|]. split; [exact X2|]. split; [exact Y2|]. split; [exact LI0|exact LA0].
  Qed.

  (** ** the products agree *)
  Lemma concat_ops rh rm shift (A V T : list (list K)) : Forall2 (fun a v => length v = length a) A V -> Forall2 (fun a t => length t = length a) A T ->
    concat (ops_tab rh rm shift A V T) = htab rh rm (concat A) (concat V) (map (fun x => x + shift) (concat T)).
  Proof.
    intros F1. revert T. induction F1 as [|a v A V E F1 IH]; intros T F2; inversion F2 as [|? t ? T' E' F2']; subst; [reflexivity|].
    unfold ops_tab. cbn [map3 concat]. fold (ops_tab rh rm shift A V T'). rewrite IH by exact F2'. rewrite map_app, htab_app by (rewrite ?map_length; assumption). reflexivity.
  Qed.
  Lemma fprod_concat (Zs : list (list K)) : fprod (map fprod Zs) = fprod (concat Zs).
  Proof. induction Zs as [|Z Zs IH]; [reflexivity|]. cbn [map concat]. rewrite fprod_cons, fprod_app, IH. reflexivity. Qed.
  Definition bump (shift : K) : nat := if feqb shift 0 then 0%nat else 1%nat.
  Lemma htab_recs rh rm (mem : list K) (accs : list nat) (ts : nat -> nat) shift : (shift = 0 \/ shift = 1) ->
    htab rh rm (nats accs) (deref1 mem accs) (map (fun x => x + shift) (nats (map ts (seq 0 (length accs))))) =
    map (fpr rh rm) (map (fun j => let a := nth j accs 0%nat in (a, nth a mem 0, (ts j + bump shift)%nat)) (seq 0 (length accs))).
  Proof.
    intro S01. apply (list_ext _ _ 0).
    - rewrite htab_length; unfold nats, deref1; rewrite ?map_length, ?seq_length; reflexivity.
    - intros j Hj. rewrite htab_length in Hj by (unfold nats, deref1; rewrite ?map_length, ?seq_length; reflexivity). unfold nats in Hj. rewrite map_length in Hj.
      rewrite htab_nth by (unfold nats, deref1; rewrite ?map_length, ?seq_length; auto). unfold nats, deref1. rewrite !map_map. repeat rewrite (nth_map0 _ _ _ 0%nat _) by (rewrite ?seq_length; exact Hj). rewrite ?seq_nth by exact Hj. cbn [Nat.add].
      unfold fpr, fingerprint, hash3, bump. destruct S01 as [->| ->].
      + rewrite Field.feqb_refl, Nat.add_0_r. ring.
      + destruct (feqb (1 : K) 0) eqn:X; [apply feqb_true in X; destruct (F_1_neq_0 (fth K) X)|]. rewrite of_nat_add. replace (of_nat 1 : K) with (1 : K) by (cbn; ring). ring.
  Qed.
  Lemma htab_cells rh rm (mem : list K) (ts : nat -> nat) : 
    htab rh rm (nats (seq 0 (length mem))) mem (nats (map ts (seq 0 (length mem)))) = map (fpr rh rm) (map (fun a => (a, nth a mem 0, ts a)) (seq 0 (length mem))).
  Proof.
    apply (list_ext _ _ 0).
    - rewrite htab_length; unfold nats; rewrite ?map_length, ?seq_length; reflexivity.
    - intros j Hj. rewrite htab_length in Hj by (unfold nats; rewrite ?map_length, ?seq_length; reflexivity). unfold nats in Hj. rewrite map_length, seq_length in Hj.
      rewrite htab_nth by (unfold nats; rewrite ?map_length, ?seq_length; auto). unfold nats. rewrite !map_map, (nth_map0 _ _ _ 0%nat _) by (rewrite seq_length; exact Hj).
      rewrite (nth_map0 _ _ _ 0%nat _) by (rewrite seq_length; exact Hj). rewrite (nth_map0 _ _ _ 0%nat _) by (rewrite seq_length; exact Hj). rewrite !seq_nth by exact Hj. reflexivity.
  Qed.

  Lemma honest_products rh rm (mem : list K) (addrs rts : list (list nat)) (audit : list nat) :
    map (@length nat) rts = map (@length nat) addrs ->
    concat rts = map (earlier (concat addrs)) (seq 0 (length (concat addrs))) -> audit = map (total (concat addrs)) (seq 0 (length mem)) ->
    let A := map nats addrs in let V := map (deref1 mem) addrs in let T := map nats rts in let accs := concat addrs in
    htab rh rm (nats (seq 0 (length mem))) mem (repeat 0 (length mem)) = map (fpr rh rm) (at_start mem) /\
    htab rh rm (nats (seq 0 (length mem))) mem (nats audit) = map (fpr rh rm) (at_end mem accs) /\
    fprod (map fprod (ops_tab rh rm 0 A V T)) = fprod (map (fpr rh rm) (reads mem accs)) /\
    fprod (map fprod (ops_tab rh rm 1 A V T)) = fprod (map (fpr rh rm) (writes mem accs)).
  Proof.
    intros L E1 E2 A V T accs. rewrite !fprod_concat.
    assert (F1 : Forall2 (fun a v => length v = length a) A V).
    { unfold A, V, nats, deref1. clear. induction addrs; constructor; [rewrite !map_length; reflexivity|assumption]. }
    assert (F2 : Forall2 (fun a v => length v = length a) A T).
    { unfold A, T, nats. clear -L. revert rts L. induction addrs as [|a addrs IH]; intros [|r rts] L; try discriminate L; constructor.
      - cbn [map] in L. injection L as L0 _. rewrite !map_length. exact L0.
      - cbn [map] in L. injection L as _ L1. apply IH, L1. }
    rewrite !concat_ops by assumption.
    assert (EA : concat A = nats accs) by (unfold A, nats, accs; rewrite concat_map; reflexivity).
    assert (EV : concat V = deref1 mem accs) by (unfold V, deref1, accs; rewrite concat_map; reflexivity).
    assert (ET : concat T = nats (map (earlier accs) (seq 0 (length accs)))) by (unfold T, nats, accs; rewrite <- E1, concat_map; reflexivity).
    rewrite EA, EV, ET. rewrite !(htab_recs rh rm mem accs (earlier accs)) by auto.
    replace (repeat 0 (length mem)) with (nats (map (fun _ => 0%nat) (seq 0 (length mem)))).
    2:{ unfold nats. rewrite map_map. clear. assert (Q : forall s, map (fun _ : nat => of_nat 0 : K) (seq s (length mem)) = repeat 0 (length mem)); [|apply Q].
        induction mem as [|? ? IH]; intro s; [reflexivity|]. cbn [length seq map repeat]. rewrite IH. reflexivity. }
    rewrite E2, !htab_cells. split; [reflexivity|]. split; [reflexivity|].
    unfold bump. rewrite Field.feqb_refl. destruct (feqb (1 : K) 0) eqn:X; [apply feqb_true in X; destruct (F_1_neq_0 (fth K) X)|].
    split; do 2 f_equal; apply map_ext; intro j; cbn zeta; [rewrite Nat.add_0_r|rewrite Nat.add_1_r]; reflexivity.
  Qed.
  Lemma honest_balanced rh rm (mem : list K) (addrs rts : list (list nat)) (audit : list nat) :
    (forall x, In x (concat addrs) -> (x < length mem)%nat) -> map (@length nat) rts = map (@length nat) addrs ->
    concat rts = map (earlier (concat addrs)) (seq 0 (length (concat addrs))) -> audit = map (total (concat addrs)) (seq 0 (length mem)) ->
    let A := map nats addrs in let V := map (deref1 mem) addrs in let T := map nats rts in
    balanced (htab rh rm (nats (seq 0 (length mem))) mem (repeat 0 (length mem))) (htab rh rm (nats (seq 0 (length mem))) mem (nats audit)) (ops_tab rh rm 0 A V T) (ops_tab rh rm 1 A V T).
  Proof.
    intros B L E1 E2 A V T. unfold balanced. destruct (honest_products rh rm mem addrs rts audit L E1 E2) as (P1 & P2 & P3 & P4).
    unfold A, V, T. rewrite P1, P2, P3, P4, <- !fprod_app, <- !map_app. apply fprod_perm, Permutation_map, mem_perm, B.
  Qed.

  (** ** the final comparisons *)
  Lemma identity_ok (r : list K) : identity_evaluate (length r) r = Ok (mle (nats (seq 0 (2 ^ length r))) r).
  Proof. unfold identity_evaluate. rewrite Nat.eqb_refl. unfold pow2. rewrite identity_mle. reflexivity. Qed.
  Lemma eq_ok (r rx : list K) : length r = length rx -> eq_evaluate r rx = Ok (mle (eq_evals r) rx).
  Proof. intro L. rewrite (PolyImp.eq_evaluate_ok K), (PolyImp.eq_mle K) by exact L. reflexivity. Qed.
  Lemma mle_shift (T r : list K) s : length T = (2 ^ length r)%nat -> mle (map (fun x => x + s) T) r = mle T r + s.
  Proof.
    intro L. rewrite (mle_ext _ _ (tab (2 ^ length r) (fun i => 1 * nth i T 0 + 1 * nth i (tab (2 ^ length r) (fun _ => s)) 0))).
    - rewrite mle_lin, mle_const. ring.
    - intros i Hi. rewrite !nth_tab by exact Hi. rewrite (nth_map0 _ _ _ 0 _) by lia. ring.
  Qed.

  Lemma honest_check (r rm ro : list K) (A V T : list (list K)) (U : list K) rh rmc : length r = length rm -> length U = (2 ^ length rm)%nat ->
    all_len (length ro) A -> all_len (length ro) V -> all_len (length ro) T -> length V = length A -> length T = length A ->
    let ev := fun Z => mle Z ro in let me := fun Z => mle Z rm in let ids := nats (seq 0 (2 ^ length rm)) in let mem := eq_evals r in
    hl_check rm (me (htab rh rmc ids mem (repeat 0 (2 ^ length rm))), map ev (ops_tab rh rmc 0 A V T), map ev (ops_tab rh rmc 1 A V T), me (htab rh rmc ids mem U))
      (map ev V) (map ev A) (map ev T) (me U) r rh rmc = Ok tt.
  Proof.
    intros Lr LU LA LV LT L1 L2 ev me ids mem. unfold hl_check. rewrite identity_ok, (eq_ok r rm Lr). cbn [bind].
    assert (Li : length ids = (2 ^ length rm)%nat) by (unfold ids, nats; rewrite map_length, seq_length; reflexivity).
    assert (Lm : length mem = (2 ^ length rm)%nat) by (unfold mem; rewrite eq_evals_length, Lr; reflexivity).
    unfold me. rewrite !mle_htab by (rewrite ?repeat_length; congruence). fold ids mem. rewrite mle_zero, !Field.feqb_refl.
    assert (CH : forall s, mapM (fun i => do a <- idx (map ev A) i; do v <- idx (map ev V) i; do t <- idx (map ev T) i; do c <- idx (map ev (ops_tab rh rmc s A V T)) i;
                     assert (feqb (hash3 rh rmc a v (t + s)) c); Ok tt) (seq 0 (length (map ev A))) = Ok (map (fun _ => tt) (seq 0 (length (map ev A))))).
    { intro s. apply mapM_ok. intros i Hi. rewrite map_length in Hi. apply in_seq in Hi.
      assert (LO : length (ops_tab rh rmc s A V T) = length A) by (apply map3_length; assumption).
      rewrite !(idx_nth _ i (ev [])) by (rewrite map_length; lia). cbn [bind]. rewrite !map_nth. unfold ops_tab. rewrite (map3_nth _ [] [] []) by lia. unfold ev.
      assert (Q1 : length (nth i A []) = (2 ^ length ro)%nat) by (apply LA, nth_In; lia). assert (Q2 : length (nth i V []) = (2 ^ length ro)%nat) by (apply LV, nth_In; lia). assert (Q3 : length (nth i T []) = (2 ^ length ro)%nat) by (apply LT, nth_In; lia).
      rewrite mle_htab by (rewrite ?map_length; congruence). rewrite mle_shift by exact Q3. rewrite Field.feqb_refl. reflexivity. }
    rewrite !CH. reflexivity.
  Qed.
  (** no addresses: nothing is compared *)
  Lemma empty_check (r rm : list K) (R W vals reads : list K) (U : list K) rh rmc : length r = length rm -> length U = (2 ^ length rm)%nat ->
    let me := fun Z => mle Z rm in let ids := nats (seq 0 (2 ^ length rm)) in let mem := eq_evals r in
    hl_check rm (me (htab rh rmc ids mem (repeat 0 (2 ^ length rm))), R, W, me (htab rh rmc ids mem U)) vals [] reads (me U) r rh rmc = Ok tt.
  Proof.
    intros Lr LU me ids mem. unfold hl_check. rewrite identity_ok, (eq_ok r rm Lr). cbn [bind length seq mapM].
    assert (Li : length ids = (2 ^ length rm)%nat) by (unfold ids, nats; rewrite map_length, seq_length; reflexivity).
    assert (Lm : length mem = (2 ^ length rm)%nat) by (unfold mem; rewrite eq_evals_length, Lr; reflexivity).
    unfold me. rewrite !mle_htab by (rewrite ?repeat_length; congruence). fold ids mem. rewrite mle_zero, !Field.feqb_refl. reflexivity.
  Qed.
End Tab.
