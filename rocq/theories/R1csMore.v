From Coq Require Import List Arith Bool Lia Field Ring.
From Verif Require Import Base ListAux Field Vec MathModel PolyModel PolySpec PolyProofs PolyImp R1csModel R1csSpec R1csProofs.
Import ListNotations.

Section Proofs.
  Variable K : Fld.
  Local Open Scope fld_scope.
  Add Field Kr2 : (fth K).
  Implicit Types (z : list K) (e : entry K) (es : list (entry K)).

  Lemma mat_cons t M i j : mat (t :: M) i j =
    (let '(r, c, v) := t in if Nat.eqb r i && Nat.eqb c j then v else 0) + mat M i j :> K.
  Proof. reflexivity. Qed.
  (** weighted sums over the whole matrix *)
  Lemma mat_sum es nr nc (f g : nat -> K) : ents_ok nr nc es ->
    sumn nr (fun i => f i * sumn nc (fun j => mat (triples es) i j * g j)) =
    fsum (map (fun e => f (erow e) * g (ecol e) * eval e) es).
  Proof.
    induction es as [|e es IH]; intro H.
    - cbn [map]. rewrite fsum_nil. apply sumn_zero. intros i _. rewrite sumn_zero; [ring|]. intros j _. change (mat (triples []) i j) with (0 : K). ring.
    - cbn [map]. rewrite fsum_cons, <- IH by (intros x Hx; apply H; right; exact Hx).
      destruct (H e (or_introl eq_refl)) as [Hr Hc].
      transitivity (sumn nr (fun i => f i * (if Nat.eqb (erow e) i then eval e * g (ecol e) else 0) + f i * sumn nc (fun j => mat (triples es) i j * g j))).
      + apply sumn_ext. intros i Hi. 
        transitivity (f i * (sumn nc (fun j => (if Nat.eqb (erow e) i && Nat.eqb (ecol e) j then eval e else 0) * g j) + sumn nc (fun j => mat (triples es) i j * g j))).
        * f_equal. rewrite <- sumn_plus. apply sumn_ext. intros j Hj. cbn [triples map]. rewrite mat_cons. unfold triples. ring.
        * rewrite (sumn_single K nc (ecol e)) by (assumption || (intros j _ Hj; destruct (Nat.eqb_spec (ecol e) j); [congruence|rewrite andb_false_r; ring])).
          rewrite Nat.eqb_refl, andb_true_r. destruct (Nat.eqb (erow e) i); ring.
      + rewrite sumn_plus. f_equal. rewrite (sumn_single K nr (erow e)); [rewrite Nat.eqb_refl; ring|exact Hr|].
        intros i _ Hi. destruct (Nat.eqb_spec (erow e) i); [congruence|ring].
  Qed.
  Lemma row_val_mat es i nc z : (forall e, In e es -> (ecol e < nc)%nat) ->
    row_val (triples es) i z = sumn nc (fun j => mat (triples es) i j * nth j z 0).
  Proof.
    induction es as [|e es IH]; intro H.
    - symmetry. apply sumn_zero. intros j _. change (mat (triples []) i j) with (0 : K). ring.
    - cbn [triples map]. rewrite row_val_cons. change (map _ es) with (triples es). rewrite IH by (intros x Hx; apply H; right; exact Hx).
      transitivity (sumn nc (fun j => (if Nat.eqb (erow e) i && Nat.eqb (ecol e) j then eval e else 0) * nth j z 0) + sumn nc (fun j => mat (triples es) i j * nth j z 0)).
      + f_equal. rewrite (sumn_single K nc (ecol e)).
        * rewrite Nat.eqb_refl, andb_true_r. destruct (Nat.eqb (erow e) i); ring.
        * apply H. left. reflexivity.
        * intros j _ Hj. destruct (Nat.eqb_spec (ecol e) j); [congruence|rewrite andb_false_r; ring].
      + rewrite <- sumn_plus. apply sumn_ext. intros j _. rewrite mat_cons. ring.
  Qed.

  Lemma table_fold rx es : forall acc nc, length acc = nc -> ents_ok (length rx) nc es ->
    exists l, fold_left (table_step rx) es (Ok acc) = Ok l /\ length l = nc /\
      forall j, (j < nc)%nat -> nth j l 0 = nth j acc 0 + sumn (length rx) (fun i => nth i rx 0 * mat (triples es) i j).
  Proof.
    induction es as [|e es IH]; intros acc nc HL H.
    - exists acc. split; [reflexivity|]. split; [exact HL|]. intros j _. rewrite sumn_zero; [ring|]. intros i _.
      change (mat (triples []) i j) with (0 : K). ring.
    - destruct (H e (or_introl eq_refl)) as [Hr Hc].
      cbn [fold_left]. unfold table_step at 2. cbn [bind].
      rewrite (idx_nth rx _ 0) by exact Hr. rewrite (idx_nth acc _ 0) by lia. cbn [bind].
      destruct (IH (upd acc (ecol e) (nth (ecol e) acc 0 + nth (erow e) rx 0 * eval e)) nc) as (l & E & L & N).
      + rewrite upd_length. exact HL.
      + intros x Hx. apply H. right. exact Hx.
      + exists l. split; [exact E|]. split; [exact L|]. intros j Hj. rewrite N by exact Hj.
        transitivity (nth j acc 0 + (sumn (length rx) (fun i => nth i rx 0 * (if Nat.eqb (erow e) i && Nat.eqb (ecol e) j then eval e else 0)) + sumn (length rx) (fun i => nth i rx 0 * mat (triples es) i j))).
        * rewrite (sumn_single K (length rx) (erow e) (fun i => nth i rx 0 * (if Nat.eqb (erow e) i && Nat.eqb (ecol e) j then eval e else 0))); [|exact Hr|].
          2:{ intros i _ Hi. destruct (Nat.eqb_spec (erow e) i); [congruence|cbn [andb]; ring]. }
          rewrite Nat.eqb_refl. cbn [andb]. destruct (Nat.eqb_spec (ecol e) j) as [->|Ne].
          -- rewrite nth_upd_same by lia. ring.
          -- rewrite nth_upd_other by exact Ne. ring.
        * f_equal. rewrite <- sumn_plus. apply sumn_ext. intros i _. cbn [triples map]. rewrite mat_cons. unfold triples. ring.
  Qed.
  Lemma eval_table_ok (P : sparse K) rx nr nc : length rx = nr -> ents_ok nr nc (sM P) ->
    exists l, sparse_eval_table P rx nr nc = Ok l /\ length l = nc /\
      forall j, (j < nc)%nat -> nth j l 0 = sumn nr (fun i => nth i rx 0 * mat (triples (sM P)) i j).
  Proof.
    intros Hr H. unfold sparse_eval_table. rewrite Hr, Nat.eqb_refl.
    destruct (table_fold rx (sM P) (repeat 0 nc) nc) as (l & E & L & N).
    - apply repeat_length.
    - rewrite Hr. exact H.
    - exists l. split; [exact E|]. split; [exact L|]. intros j Hj. rewrite N, nth_repeat0, Hr by exact Hj. ring.
  Qed.

  Lemma mle_tab n f (r : list K) : n = (2 ^ length r)%nat -> mle (tab n f) r = sumn n (fun i => f i * chi r i).
  Proof. intros ->. unfold mle. apply sumn_ext. intros i Hi. rewrite nth_tab by exact Hi. reflexivity. Qed.
  Lemma In_tab {A} n (f : nat -> A) x : In x (tab n f) -> exists i, (i < n)%nat /\ x = f i.
  Proof. unfold tab. intro H. apply in_map_iff in H. destruct H as (i & <- & H). apply in_seq in H. exists i. split; [lia|reflexivity]. Qed.
  Lemma mat_table_mle M (rx ry : list K) :
    mle (mat_table M (2 ^ length rx) (2 ^ length ry)) (rx ++ ry) =
    sumn (2 ^ length rx) (fun i => chi rx i * sumn (2 ^ length ry) (fun j => mat M i j * chi ry j)).
  Proof.
    unfold mat_table. rewrite mle_concat.
    - rewrite map_tab, mle_tab by reflexivity. apply sumn_ext. intros i _. rewrite mle_tab by reflexivity. ring.
    - apply tab_length.
    - intros row Hrow. apply In_tab in Hrow. destruct Hrow as (i & _ & ->). apply tab_length.
  Qed.
  Lemma evaluate_with_tables_ok (P : sparse K) (rx ry : list K) : snx P = length rx -> sny P = length ry ->
    ents_ok (2 ^ length rx) (2 ^ length ry) (sM P) ->
    evaluate_with_tables P (eq_evals rx) (eq_evals ry) = Ok (mle (mat_table (triples (sM P)) (2 ^ length rx) (2 ^ length ry)) (rx ++ ry)).
  Proof.
    intros Hx Hy H. unfold evaluate_with_tables. rewrite !eq_evals_length, Hx, Hy. unfold pow2. rewrite !Nat.eqb_refl.
    rewrite (mapM_ok _ (fun e => chi rx (erow e) * chi ry (ecol e) * eval e)).
    - cbn [bind]. rewrite mat_table_mle, (mat_sum _ _ _ (chi rx) (chi ry) H). reflexivity.
    - intros e He. destruct (H e He) as [Hr Hc]. rewrite (idx_nth (eq_evals rx) _ 0), (idx_nth (eq_evals ry) _ 0) by (rewrite eq_evals_length; assumption).
      cbn [bind]. rewrite !eq_evals_nth by assumption. reflexivity.
  Qed.
  Lemma multi_evaluate_ok (Ps : list (sparse K)) (rx ry : list K) :
    (forall P, In P Ps -> snx P = length rx /\ sny P = length ry /\ ents_ok (2 ^ length rx) (2 ^ length ry) (sM P)) ->
    multi_evaluate Ps rx ry = Ok (map (fun P => mle (mat_table (triples (sM P)) (2 ^ length rx) (2 ^ length ry)) (rx ++ ry)) Ps).
  Proof.
    intro H. unfold multi_evaluate. apply mapM_ok. intros P HP. destruct (H P HP) as (Hx & Hy & Hm). apply evaluate_with_tables_ok; assumption.
  Qed.
  (** evaluating the bound table at ry gives the same value *)
  Lemma table_then_eval (P : sparse K) (rx ry : list K) : ents_ok (2 ^ length rx) (2 ^ length ry) (sM P) ->
    exists l, sparse_eval_table P (eq_evals rx) (2 ^ length rx) (2 ^ length ry) = Ok l /\
      length l = (2 ^ length ry)%nat /\
      mle l ry = mle (mat_table (triples (sM P)) (2 ^ length rx) (2 ^ length ry)) (rx ++ ry).
  Proof.
    intro H. destruct (eval_table_ok P (eq_evals rx) (2 ^ length rx) (2 ^ length ry)) as (l & E & L & N).
    - apply eq_evals_length.
    - exact H.
    - exists l. split; [exact E|]. split; [exact L|]. rewrite mat_table_mle. unfold mle.
      transitivity (sumn (2 ^ length ry) (fun j => sumn (2 ^ length rx) (fun i => chi rx i * mat (triples (sM P)) i j * chi ry j))).
      + apply sumn_ext. intros j Hj. rewrite N by exact Hj.
        transitivity (chi ry j * sumn (2 ^ length rx) (fun i => nth i (eq_evals rx) 0 * mat (triples (sM P)) i j)); [ring|].
        rewrite <- sumn_scale. apply sumn_ext. intros i Hi. rewrite eq_evals_nth by exact Hi. ring.
      + rewrite (sumn_swap K). apply sumn_ext. intros i _. rewrite <- sumn_scale. apply sumn_ext. intros j _. ring.
  Qed.

  (** ** synthetic instances *)
  Lemma nz_idx_mod (Z : list K) i m : length Z = m -> (0 < m)%nat -> idx Z (i mod m) = Ok (nth (i mod m) Z 0).
  Proof. intros H Hm. apply idx_nth. rewrite H. apply Nat.mod_upper_bound. lia. Qed.
  Definition syn_val (nv sz : nat) (Z : list K) (i : nat) : entry K * entry K * entry K :=
    (MkEntry i (i mod sz) 1, MkEntry i ((i + 2) mod sz) 1,
     if feqb (nth ((i + 3) mod sz) Z 0) 0 then MkEntry i nv (nth (i mod sz) Z 0 * nth ((i + 2) mod sz) Z 0)
     else MkEntry i ((i + 3) mod sz) (nth (i mod sz) Z 0 * nth ((i + 2) mod sz) Z 0 * finv (nth ((i + 3) mod sz) Z 0))).
  Lemma syn_entry_ok nv sz Z i : length Z = sz -> (0 < sz)%nat -> syn_entry nv sz Z i = Ok (syn_val nv sz Z i).
  Proof.
    intros H Hs. unfold syn_entry, syn_val. rewrite !nz_idx_mod by assumption. cbn [bind].
    destruct (feqb_spec K (nth ((i + 3) mod sz) Z 0) 0) as [E|E]; [reflexivity|]. rewrite inv_unwrap_ok by exact E. reflexivity.
  Qed.
  Lemma rowlist_single (sel : nat -> entry K) n i z : (forall j, erow (sel j) = j) -> (i < n)%nat ->
    row_val (triples (map sel (seq 0 n))) i z = eval (sel i) * nth (ecol (sel i)) z 0.
  Proof.
    intros H Hi. unfold triples, row_val. rewrite !map_map.
    change (map (fun x => if Nat.eqb (erow (sel x)) i then eval (sel x) * nth (ecol (sel x)) z 0 else 0) (seq 0 n))
      with (tab n (fun x => if Nat.eqb (erow (sel x)) i then eval (sel x) * nth (ecol (sel x)) z 0 else 0)).
    change (fsum (tab n ?f)) with (sumn n f).
    rewrite (sumn_single K n i); [rewrite H, Nat.eqb_refl; reflexivity|exact Hi|].
    intros j _ Hj. rewrite H. destruct (Nat.eqb_spec j i); [congruence|reflexivity].
  Qed.
  Lemma produce_synthetic_ok a b ni (rnd : list K) : (ni < 2 ^ b)%nat -> length rnd = (2 ^ b + ni + 1)%nat ->
    exists I vars inputs, produce_synthetic (2 ^ a) (2 ^ b) ni rnd = Ok (I, vars, inputs) /\
      rc_cons I = (2 ^ a)%nat /\ rc_vars I = (2 ^ b)%nat /\ rc_inputs I = ni /\
      vars = firstn (2 ^ b) rnd /\ inputs = skipn (2 ^ b + 1) rnd /\ r1cs_wf I /\
      r1cs_is_sat I vars inputs = Ok true.
  Proof.
    intros Hni HL. unfold produce_synthetic. rewrite !log_2_pow. cbn [bind]. unfold pow2. rewrite !Nat.eqb_refl.
    set (nv := (2 ^ b)%nat) in *. set (sz := (nv + ni + 1)%nat).
    replace (Nat.ltb ni nv) with true by (symmetry; apply Nat.ltb_lt; exact Hni).
    replace (Nat.ltb nv (length rnd)) with true by (symmetry; apply Nat.ltb_lt; lia).
    set (Z := upd rnd nv 1). assert (HZ : length Z = sz) by (unfold Z, sz; rewrite upd_length; exact HL).
    rewrite (mapM_ok _ (syn_val nv sz Z)) by (intros; apply syn_entry_ok; [exact HZ|unfold sz; lia]). cbn [bind].
    rewrite log_2_pos by (unfold nv; pose proof (pow2_pos b); lia). cbn [bind]. rewrite !map_map.
    assert (EZ : firstn nv Z ++ [1] ++ skipn (nv + 1) Z = Z).
    { unfold Z. rewrite upd_split by lia. rewrite firstn_app, firstn_firstn, Nat.min_id, firstn_length, Nat.min_l, Nat.sub_diag by lia.
      cbn [firstn]. rewrite app_nil_r. f_equal. cbn [app]. f_equal.
      rewrite skipn_app, firstn_length, Nat.min_l by lia. replace (nv + 1 - nv)%nat with 1%nat by lia. rewrite skipn_all2 by (rewrite firstn_length; lia).
      reflexivity. }
    set (I := MkR1cs _ _ _ _ _ _).
    assert (Hlv : length (firstn nv Z) = nv) by (rewrite firstn_length, HZ; unfold sz; lia).
    assert (Hli : length (skipn (nv + 1) Z) = ni) by (rewrite skipn_length, HZ; unfold sz; lia).
    assert (Hwf : r1cs_wf I).
    { unfold I. split; [|split]; cbn [rc_A rc_B rc_C rc_cons rc_vars rc_inputs sM]; intros e He; apply in_map_iff in He;
        destruct He as (i & <- & Hi); apply in_seq in Hi; cbn [syn_val fst snd erow ecol].
      - split; [lia|]. fold sz. apply Nat.mod_upper_bound. unfold sz; lia.
      - split; [lia|]. fold sz. apply Nat.mod_upper_bound. unfold sz; lia.
      - destruct (feqb _ 0); cbn [erow ecol]; (split; [lia|]); [lia|]. fold sz. apply Nat.mod_upper_bound. unfold sz; lia. }
    destruct (r1cs_is_sat_ok K I (firstn nv Z) (skipn (nv + 1) Z) Hwf) as (ok & Es & Hs); [exact Hlv|exact Hli|].
    assert (ok = true) as ->.
    { apply Hs. rewrite EZ. intros i Hi. cbn [I rc_cons] in Hi. unfold I. cbn [rc_A rc_B rc_C sM].
      rewrite (rowlist_single (fun x => fst (fst (syn_val nv sz Z x)))) by (reflexivity || exact Hi).
      rewrite (rowlist_single (fun x => snd (fst (syn_val nv sz Z x)))) by (reflexivity || exact Hi).
      rewrite (rowlist_single (fun x => snd (syn_val nv sz Z x))) by ((intro j; unfold syn_val; cbn [snd]; destruct (feqb _ 0); reflexivity) || exact Hi).
      cbn [syn_val fst snd ecol eval]. destruct (feqb_spec K (nth ((i + 3) mod sz) Z 0) 0) as [E|E]; cbn [ecol eval].
      - assert (nth nv Z 0 = 1) as -> by (unfold Z; apply nth_upd_same; lia). ring.
      - field. exact E. }
    rewrite Es. cbn [bind]. exists I, (firstn nv Z), (skipn (nv + 1) Z). split; [reflexivity|].
    split; [reflexivity|]. split; [reflexivity|]. split; [reflexivity|]. split; [|split].
    - unfold Z. rewrite upd_split by lia. rewrite firstn_app, firstn_firstn, Nat.min_id, firstn_length, Nat.min_l, Nat.sub_diag by lia.
      cbn [firstn]. apply app_nil_r.
    - unfold Z. rewrite upd_split by lia. rewrite skipn_app, firstn_length, Nat.min_l by lia. replace (nv + 1 - nv)%nat with 1%nat by lia.
      rewrite skipn_all2 by (rewrite firstn_length; lia). replace (S nv) with (nv + 1)%nat by lia. reflexivity.
    - split; [exact Hwf|exact Es].
  Qed.
End Proofs.
