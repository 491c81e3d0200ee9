From Coq Require Import List Arith Bool Lia Field Ring.
From Verif Require Import Base ListAux Field Vec MathModel PolyModel PolySpec PolyProofs PolyImp R1csModel R1csSpec.
Import ListNotations.

Section Proofs.
  Variable K : Fld.
  Local Open Scope fld_scope.
  Add Field Kr : (fth K).
  Implicit Types (z vars inputs : list K) (e : entry K) (es : list (entry K)).

  Lemma row_val_cons t M i z : row_val (t :: M) i z =
    (let '(r, c, v) := t in if Nat.eqb r i then v * nth c z 0 else 0) + row_val M i z.
  Proof. reflexivity. Qed.
  Lemma row_val_app M M' i z : row_val (M ++ M') i z = row_val M i z + row_val M' i z.
  Proof. unfold row_val. rewrite map_app, fsum_app. reflexivity. Qed.

  Lemma mul_fold z es : forall acc nr, length acc = nr -> ents_ok nr (length z) es ->
    exists l, fold_left (mul_step z) es (Ok acc) = Ok l /\ length l = nr /\
      forall i, (i < nr)%nat -> nth i l 0 = nth i acc 0 + row_val (triples es) i z.
  Proof.
    induction es as [|e es IH]; intros acc nr HL H.
    - exists acc. split; [reflexivity|]. split; [exact HL|]. intros i _. cbn. ring.
    - destruct (H e (or_introl eq_refl)) as [Hr Hc].
      cbn [fold_left]. unfold mul_step at 2. cbn [bind].
      rewrite (idx_nth z _ 0) by exact Hc. rewrite (idx_nth acc _ 0) by lia. cbn [bind].
      destruct (IH (upd acc (erow e) (nth (erow e) acc 0 + eval e * nth (ecol e) z 0)) nr) as (l & E & L & N).
      + rewrite upd_length. exact HL.
      + intros x Hx. apply H. right. exact Hx.
      + exists l. split; [exact E|]. split; [exact L|]. intros i Hi. rewrite N by exact Hi.
        cbn [triples map]. rewrite row_val_cons. destruct (Nat.eqb_spec (erow e) i) as [->|Ne].
        * rewrite nth_upd_same by lia. unfold triples. ring.
        * rewrite nth_upd_other by exact Ne. unfold triples. ring.
  Qed.
  Lemma nth_repeat0 i n : nth i (repeat 0 n) 0 = (0 : K).
  Proof. apply nth_repeat. Qed.
  Lemma multiply_vec_ok (P : sparse K) nr nc z : length z = nc -> ents_ok nr nc (sM P) ->
    exists l, sparse_multiply_vec P nr nc z = Ok l /\ length l = nr /\
      forall i, (i < nr)%nat -> nth i l 0 = row_val (triples (sM P)) i z.
  Proof.
    intros Hz H. unfold sparse_multiply_vec. rewrite Hz, Nat.eqb_refl.
    destruct (mul_fold z (sM P) (repeat 0 nr) nr) as (l & E & L & N).
    - apply repeat_length.
    - rewrite Hz. exact H.
    - exists l. split; [exact E|]. split; [exact L|]. intros i Hi. rewrite N, nth_repeat0 by exact Hi. ring.
  Qed.

  Lemma r1cs_is_sat_ok (I : r1cs K) vars inputs : r1cs_wf I -> length vars = rc_vars I -> length inputs = rc_inputs I ->
    exists b, r1cs_is_sat I vars inputs = Ok b /\
      (b = true <-> sat (rc_cons I) (triples (sM (rc_A I))) (triples (sM (rc_B I))) (triples (sM (rc_C I))) (vars ++ [1] ++ inputs)).
  Proof.
    intros (HA & HB & HC) Hv Hi. unfold r1cs_is_sat. rewrite Hv, Hi, !Nat.eqb_refl.
    set (z := vars ++ [1] ++ inputs). assert (Hz : length z = (rc_vars I + rc_inputs I + 1)%nat).
    { unfold z. rewrite !app_length. cbn [length]. lia. }
    destruct (multiply_vec_ok (rc_A I) (rc_cons I) _ z Hz HA) as (la & -> & La & Na).
    destruct (multiply_vec_ok (rc_B I) (rc_cons I) _ z Hz HB) as (lb & -> & Lb & Nb).
    destruct (multiply_vec_ok (rc_C I) (rc_cons I) _ z Hz HC) as (lc & -> & Lc & Nc).
    cbn [bind]. rewrite La, Lb, Lc, !Nat.eqb_refl. eexists. split; [reflexivity|].
    unfold rows_ok, sat. rewrite forallb_forall. split.
    - intros H i Hi'. specialize (H i). rewrite in_seq in H. specialize (H ltac:(lia)).
      destruct (feqb_spec K (nth i la 0 * nth i lb 0) (nth i lc 0)) as [E|]; [|discriminate].
      rewrite <- Na, <- Nb, <- Nc by exact Hi'. exact E.
    - intros H i Hi'. rewrite in_seq in Hi'. specialize (H i ltac:(lia)).
      rewrite Na, Nb, Nc by lia. destruct (feqb_spec K (row_val (triples (sM (rc_A I))) i z * row_val (triples (sM (rc_B I))) i z) (row_val (triples (sM (rc_C I))) i z)); [reflexivity|contradiction].
  Qed.

  (** ** Padding *)
  Lemma pad_vars_eq nv ni : pad_vars nv ni = next_pow2 (Nat.max nv (ni + 1)).
  Proof. unfold pad_vars. destruct (Nat.eqb_spec (next_pow2 (Nat.max nv (ni + 1))) (Nat.max nv (ni + 1))) as [E|E]; [congruence|reflexivity]. Qed.
  Lemma next_pow2_idem a : next_pow2 (next_pow2 a) = next_pow2 a.
  Proof. unfold next_pow2 at 2 3. apply next_pow2_pow. Qed.
  Lemma pad_vars_spec nv ni : (nv <= pad_vars nv ni)%nat /\ (ni < pad_vars nv ni)%nat /\ next_pow2 (pad_vars nv ni) = pad_vars nv ni.
  Proof.
    rewrite pad_vars_eq. pose proof (next_pow2_ge (Nat.max nv (ni + 1))). split; [lia|]. split; [lia|]. apply next_pow2_idem.
  Qed.
  Lemma pad_cons_eq nc : pad_cons nc = (if Nat.eqb nc 1 then 2 else next_pow2 nc)%nat.
  Proof.
    unfold pad_cons. destruct nc as [|[|nc]]; [reflexivity|reflexivity|]. cbn [Nat.eqb orb].
    destruct (Nat.eqb_spec (next_pow2 (S (S nc))) (S (S nc))) as [E|E]; [congruence|reflexivity].
  Qed.
  Lemma pad_cons_spec nc : (nc <= pad_cons nc)%nat /\ next_pow2 (pad_cons nc) = pad_cons nc /\ (1 <= nc -> 2 <= pad_cons nc)%nat /\ (1 <= pad_cons nc)%nat.
  Proof.
    rewrite pad_cons_eq. destruct (Nat.eqb_spec nc 1) as [->|N]; [repeat split; auto; cbn; lia|].
    pose proof (next_pow2_ge nc). split; [lia|]. split; [apply next_pow2_idem|]. split; [lia|].
    destruct nc; [cbn; lia|lia].
  Qed.

  Variable bytes : Type.
  Variable parse : bytes -> option K.
  Variable D : Type.
  Variable digest_of : r1cs K -> D.

  Definition shift (nv ni c : nat) : nat := if Nat.leb nv c then (c + pad_vars nv ni - nv)%nat else c.
  Definition to_entry (nv ni : nat) (t : nat * nat * K) : entry K := let '(r, c, v) := t in MkEntry r (shift nv ni c) v.

  Lemma to_scalars_ok nc nv ni T : forall V, triples_ok parse nc nv ni T V ->
    to_scalars parse nc nv ni T = Ok (map (to_entry nv ni) V).
  Proof.
    induction T as [|[[r c] b] T IH]; intros V H; inversion H as [|t v T' V' Ht HT]; subst; [reflexivity|].
    destruct v as [[r' c'] v]. destruct Ht as (E1 & E2 & Hr & Hc). cbn [fst snd] in *. injection E1 as -> ->.
    cbn [to_scalars]. replace (Nat.leb nc r) with false by (symmetry; apply Nat.leb_gt; exact Hr).
    replace (Nat.leb (nv + 1 + ni) c) with false by (symmetry; apply Nat.leb_gt; exact Hc).
    rewrite E2, (IH V' HT). reflexivity.
  Qed.
  Lemma to_scalars_inv nc nv ni T : forall es, to_scalars parse nc nv ni T = Ok es -> exists V, triples_ok parse nc nv ni T V.
  Proof.
    induction T as [|[[r c] b] T IH]; intros es H; [exists []; constructor|]. cbn [to_scalars] in H.
    destruct (Nat.leb_spec nc r); [discriminate|]. destruct (Nat.leb_spec (nv + 1 + ni) c); [discriminate|].
    destruct (parse b) as [v|] eqn:E; [|discriminate].
    destruct (to_scalars parse nc nv ni T) as [es'| |] eqn:E'; try discriminate.
    destruct (IH es' eq_refl) as [V HV]. exists ((r, c, v) :: V). constructor; [|exact HV]. repeat split; cbn [fst snd]; auto.
  Qed.
  Lemma to_scalars_no_panic nc nv ni T : to_scalars parse nc nv ni T <> Panic.
  Proof.
    induction T as [|[[r c] b] T IH]; [discriminate|]. cbn [to_scalars]. destruct (Nat.leb nc r); [discriminate|].
    destruct (Nat.leb (nv + 1 + ni) c); [discriminate|]. destruct (parse b); [|discriminate].
    destruct (to_scalars parse nc nv ni T); cbn [bind]; congruence.
  Qed.
  (** the error of a list is that of its first bad triple *)
  Lemma to_scalars_err nc nv ni T :
    match first_bad parse nc nv ni T with
    | Some x => to_scalars parse nc nv ni T = Err x
    | None => exists V, triples_ok parse nc nv ni T V
    end.
  Proof.
    induction T as [|[[r c] b] T IH]; [exists []; constructor|]. cbn [first_bad to_scalars bad_triple fst snd]. unfold bad_triple. cbn [fst snd].
    destruct (Nat.leb_spec nc r) as [L|L]; [reflexivity|]. cbn [orb]. destruct (Nat.leb_spec (nv + 1 + ni) c) as [L'|L']; [reflexivity|].
    destruct (parse b) as [v|] eqn:E; [|reflexivity].
    destruct (first_bad parse nc nv ni T) as [x|]; [rewrite IH; reflexivity|].
    destruct IH as [V HV]. exists ((r, c, v) :: V). constructor; [|exact HV]. repeat split; cbn [fst snd]; auto.
  Qed.

  Definition inst_of nc nv ni (VA VB VC : list (nat * nat * K)) (la lb lc : nat) : r1cs K :=
    let nx := Nat.log2_up (pad_cons nc) in let ny := Nat.log2_up (2 * pad_vars nv ni) in
    MkR1cs (pad_cons nc) (pad_vars nv ni) ni
      (MkSparse nx ny (map (to_entry nv ni) VA ++ pad_rows nc nv la))
      (MkSparse nx ny (map (to_entry nv ni) VB ++ pad_rows nc nv lb))
      (MkSparse nx ny (map (to_entry nv ni) VC ++ pad_rows nc nv lc)).
  Lemma log_2_pos x : (1 <= x)%nat -> log_2 x = Ok (Nat.log2_up x).
  Proof. destruct x; [lia|reflexivity]. Qed.
  Lemma instance_new_ok nc nv ni A B C VA VB VC :
    triples_ok parse nc nv ni A VA -> triples_ok parse nc nv ni B VB -> triples_ok parse nc nv ni C VC ->
    exists I, instance_new parse digest_of nc nv ni A B C = Ok I /\
      inst I = inst_of nc nv ni VA VB VC (length A) (length B) (length C) /\ idigest I = digest_of (inst I).
  Proof.
    intros HA HB HC. unfold instance_new, bytes_to_scalar.
    rewrite (to_scalars_ok _ _ _ _ _ HA), (to_scalars_ok _ _ _ _ _ HB), (to_scalars_ok _ _ _ _ _ HC). cbn [bind].
    destruct (pad_cons_spec nc) as (C1 & C2 & _ & C4). destruct (pad_vars_spec nv ni) as (V1 & V2 & V3).
    unfold r1cs_new. rewrite C2, V3, !Nat.eqb_refl. replace (Nat.ltb ni (pad_vars nv ni)) with true by (symmetry; apply Nat.ltb_lt; exact V2).
    rewrite !log_2_pos by lia. cbn [bind]. eexists. split; [reflexivity|]. split; reflexivity.
  Qed.

  Lemma shift_bound nv ni c : (c < nv + 1 + ni)%nat -> (shift nv ni c < pad_vars nv ni + ni + 1)%nat.
  Proof. destruct (pad_vars_spec nv ni) as (V1 & V2 & _). unfold shift. destruct (Nat.leb_spec nv c); lia. Qed.
  Lemma pad_rows_in nc nv la e : In e (pad_rows nc nv la) -> (erow e < pad_cons nc)%nat /\ ecol e = nv /\ eval e = (0 : K).
  Proof.
    unfold pad_rows. destruct (Nat.eqb nc 0 || Nat.eqb nc 1); [|intros []].
    intro H. apply in_map_iff in H. destruct H as (i & <- & Hi). apply in_seq in Hi. cbn [erow ecol eval]. repeat split; lia.
  Qed.
  Lemma side_ok nc nv ni T V la : triples_ok parse nc nv ni T V ->
    ents_ok (pad_cons nc) (pad_vars nv ni + ni + 1) (map (to_entry nv ni) V ++ pad_rows nc nv la).
  Proof.
    intros H e He. destruct (pad_cons_spec nc) as (C1 & _). destruct (pad_vars_spec nv ni) as (V1 & V2 & V3).
    apply in_app_or in He. destruct He as [He|He].
    - apply in_map_iff in He. destruct He as ([[r c] v] & <- & Hin). cbn [to_entry erow ecol].
      assert (Q : (r < nc)%nat /\ (c < nv + 1 + ni)%nat).
      { clear - H Hin. induction H as [|t w T V Ht HT IH]; [contradiction|]. destruct Hin as [->|Hin]; [|apply IH, Hin].
        destruct Ht as (E1 & _ & Hr & Hc). cbn [fst] in E1. rewrite <- E1 in Hr, Hc. cbn [fst snd] in Hr, Hc. split; assumption. }
      destruct Q as [Q1 Q2]. split; [lia|]. apply shift_bound, Q2.
    - apply pad_rows_in in He. destruct He as (R1 & -> & _). split; [exact R1|lia].
  Qed.
  Lemma inst_wf nc nv ni A B C VA VB VC la lb lc :
    triples_ok parse nc nv ni A VA -> triples_ok parse nc nv ni B VB -> triples_ok parse nc nv ni C VC ->
    r1cs_wf (inst_of nc nv ni VA VB VC la lb lc).
  Proof.
    intros HA HB HC. split; [|split]; cbn [inst_of rc_A rc_B rc_C rc_cons rc_vars rc_inputs sM].
    - eapply side_ok; eassumption.
    - eapply side_ok; eassumption.
    - eapply side_ok; eassumption.
  Qed.

  (** the padded assignment read at a shifted column is the user's assignment *)
  Lemma fit_length n (l : list K) : length (fit n l) = n.
  Proof. unfold fit. rewrite firstn_length, app_length, repeat_length. lia. Qed.
  Lemma nth_padded vars n i : nth i (vars ++ repeat 0 n) 0 = nth i vars (0 : K).
  Proof.
    destruct (Nat.lt_ge_cases i (length vars)) as [L|L]; [apply app_nth1, L|].
    rewrite app_nth2, nth_repeat0, nth_overflow by lia. reflexivity.
  Qed.
  Lemma fit_nth n (l : list K) i : (i < n)%nat -> nth i (fit n l) 0 = nth i l 0.
  Proof. intro H. unfold fit. rewrite firstn_nth, nth_padded by exact H. reflexivity. Qed.
  Lemma shift_nth nv ni vars inputs c : (c < nv + 1 + ni)%nat ->
    nth (shift nv ni c) (fit (pad_vars nv ni) vars ++ [1] ++ inputs) 0 = nth c (fit nv vars ++ [1] ++ inputs) 0.
  Proof.
    intro H. destruct (pad_vars_spec nv ni) as (V1 & V2 & _). unfold shift. destruct (Nat.leb_spec nv c) as [L|L].
    - rewrite (app_nth2 (fit (pad_vars nv ni) vars)), (app_nth2 (fit nv vars)) by (rewrite fit_length; lia).
      rewrite !fit_length. f_equal. lia.
    - rewrite (app_nth1 (fit (pad_vars nv ni) vars)), (app_nth1 (fit nv vars)) by (rewrite fit_length; lia).
      rewrite !fit_nth by lia. reflexivity.
  Qed.
  Lemma row_val_shift nc nv ni T V vars inputs i la : triples_ok parse nc nv ni T V ->
    row_val (triples (map (to_entry nv ni) V ++ pad_rows nc nv la)) i (fit (pad_vars nv ni) vars ++ [1] ++ inputs) =
    row_val V i (fit nv vars ++ [1] ++ inputs).
  Proof.
    intro H. unfold triples. rewrite map_app, row_val_app.
    assert (E0 : row_val (map (fun e => (erow e, ecol e, eval e)) (pad_rows nc nv la)) i (fit (pad_vars nv ni) vars ++ [1] ++ inputs) = 0).
    { unfold row_val. rewrite map_map.
      assert (forall e, In e (pad_rows nc nv la) -> (if Nat.eqb (erow e) i then eval e * nth (ecol e) (fit (pad_vars nv ni) vars ++ [1] ++ inputs) 0 else 0) = 0) as Hz.
      { intros e He. apply pad_rows_in in He. destruct He as (_ & _ & ->). destruct (Nat.eqb (erow e) i); ring. }
      revert Hz. generalize (pad_rows (K:=K) nc nv la). clear. intros l. induction l as [|e l IH]; intro Hz; [reflexivity|].
      cbn [map]. rewrite fsum_cons, IH by (intros; apply Hz; right; assumption). rewrite Hz by (left; reflexivity). ring. }
    rewrite E0. replace (row_val V i (fit nv vars ++ [1] ++ inputs)) with (row_val V i (fit nv vars ++ [1] ++ inputs) + 0) by ring.
    f_equal. clear E0. induction H as [|t v T V Ht HT IH]; [reflexivity|]. cbn [map]. rewrite !row_val_cons, IH. f_equal.
    destruct v as [[r c] v]. destruct Ht as (E1 & _ & Hr & Hc). cbn [fst] in E1. rewrite <- E1 in Hc. cbn [snd] in Hc.
    cbn [to_entry erow ecol eval]. rewrite shift_nth by exact Hc. reflexivity.
  Qed.
  Lemma row_val_out nc nv ni T V i z : triples_ok parse nc nv ni T V -> (nc <= i)%nat -> row_val V i z = 0.
  Proof.
    intros H Hi. induction H as [|t v T V Ht HT IH]; [reflexivity|]. rewrite row_val_cons, IH.
    destruct v as [[r c] v]. destruct Ht as (E1 & _ & Hr & _). cbn [fst] in E1. rewrite <- E1 in Hr. cbn [fst] in Hr.
    destruct (Nat.eqb_spec r i); [lia|ring].
  Qed.

  Lemma pad_fit vars n : (length vars <= n)%nat ->
    (if Nat.ltb (length vars) n then assignment_pad vars n else Ok vars) = Ok (fit n vars).
  Proof.
    intro H. unfold assignment_pad. destruct (Nat.ltb_spec (length vars) n) as [L|L].
    - f_equal. unfold fit. rewrite firstn_app, (firstn_all2 vars) by lia. f_equal.
      replace (repeat 0 n) with (repeat (0 : K) (n - length vars) ++ repeat 0 (length vars)) by (rewrite <- repeat_app; f_equal; lia).
      rewrite firstn_app, repeat_length, Nat.sub_diag. cbn [firstn]. rewrite app_nil_r, firstn_all2 by (rewrite repeat_length; lia). reflexivity.
    - f_equal. unfold fit. replace n with (length vars) by lia. rewrite firstn_app, Nat.sub_diag, firstn_all. cbn [firstn].
      rewrite app_nil_r. reflexivity.
  Qed.

  Lemma is_sat_ok nc nv ni A B C VA VB VC vars inputs :
    triples_ok parse nc nv ni A VA -> triples_ok parse nc nv ni B VB -> triples_ok parse nc nv ni C VC ->
    exists I, instance_new parse digest_of nc nv ni A B C = Ok I /\
      ((length vars <= pad_vars nv ni)%nat -> length inputs = ni ->
       exists b, instance_is_sat I vars inputs = Ok b /\
         (b = true <-> sat nc VA VB VC (fit nv vars ++ [1] ++ inputs))) /\
      ((pad_vars nv ni < length vars)%nat \/ length inputs <> ni ->
       instance_is_sat I vars inputs = Err InvalidNumberOfInputs).
  Proof.
    intros HA HB HC. destruct (instance_new_ok _ _ _ _ _ _ _ _ _ HA HB HC) as (I & E & EI & _). exists I. split; [exact E|].
    unfold instance_is_sat. rewrite EI. cbn [rc_vars rc_inputs inst_of]. split.
    - intros Hv Hi. replace (Nat.ltb (pad_vars nv ni) (length vars)) with false by (symmetry; apply Nat.ltb_ge; exact Hv).
      rewrite Hi, Nat.eqb_refl. cbn [negb]. rewrite pad_fit by exact Hv. cbn [bind].
      destruct (r1cs_is_sat_ok (inst_of nc nv ni VA VB VC (length A) (length B) (length C)) (fit (pad_vars nv ni) vars) inputs) as (b & Eb & Hb).
      + eapply inst_wf; eassumption.
      + apply fit_length.
      + exact Hi.
      + exists b. split; [exact Eb|]. rewrite Hb. cbn [inst_of rc_A rc_B rc_C rc_cons sM]. unfold sat.
        destruct (pad_cons_spec nc) as (C1 & _).
        split; intros H i Hi'.
        * specialize (H i ltac:(lia)). rewrite (row_val_shift _ _ _ _ _ _ _ _ _ HA), (row_val_shift _ _ _ _ _ _ _ _ _ HB), (row_val_shift _ _ _ _ _ _ _ _ _ HC) in H. exact H.
        * rewrite (row_val_shift _ _ _ _ _ _ _ _ _ HA), (row_val_shift _ _ _ _ _ _ _ _ _ HB), (row_val_shift _ _ _ _ _ _ _ _ _ HC).
          destruct (Nat.lt_ge_cases i nc) as [L|L]; [apply H, L|].
          rewrite (row_val_out _ _ _ _ _ _ _ HA L), (row_val_out _ _ _ _ _ _ _ HB L), (row_val_out _ _ _ _ _ _ _ HC L). ring.
    - intros H. destruct (Nat.ltb_spec (pad_vars nv ni) (length vars)) as [L|L]; [reflexivity|].
      destruct H as [H|H]; [lia|]. apply Nat.eqb_neq in H. rewrite H. reflexivity.
  Qed.

  (** ** Circom *)
  Notation lin := (list (nat * K)).
  Implicit Types cs : list (lin * lin * lin).
  Definition rows_val (sel : lin * lin * lin -> lin) (k : nat) cs : list (nat * nat * K) :=
    concat (map (fun '(i, c) => map (fun '(j, x) => (i, j, x)) (sel c)) (combine (seq k (length cs)) cs)).
  Lemma rows_of_ok {F : Type} (to_repr : F -> bytes) (f : F -> K) (self : list (nat * F) * list (nat * F) * list (nat * F) -> list (nat * F))
      (sel : lin * lin * lin -> lin) nv ni n (cs : list (list (nat * F) * list (nat * F) * list (nat * F))) :
    (forall a b c, sel (lin_map f a, lin_map f b, lin_map f c) = lin_map f (self (a, b, c))) ->
    forall k, (forall c, In c cs -> forall j x, In (j, x) (self c) -> (j < nv)%nat /\ parse (to_repr x) = Some (f x)) ->
    (k + length cs <= n)%nat ->
    triples_ok parse n nv ni
      (concat (map (fun '(i, c) => map (fun '(j, x) => (i, j, to_repr x)) (self c)) (combine (seq k (length cs)) cs)))
      (rows_val sel k (cons_map f cs)).
  Proof.
    intro Hsel. unfold rows_val, cons_map. rewrite map_length. induction cs as [|c cs IH]; intros k H Hn; [constructor|]. cbn [length seq combine map concat].
    apply Forall2_app.
    - assert (Hc := H c (or_introl eq_refl)). clear H IH. destruct c as [[a b] c]. rewrite Hsel. revert Hc. generalize (self (a, b, c)).
      intros l Hc. induction l as [|[j x] l IHl]; [constructor|]. cbn [map lin_map].
      constructor; [|apply IHl; intros j' x' Hin; apply (Hc j' x'); right; exact Hin].
      destruct (Hc j x (or_introl eq_refl)) as [Hj Hx].
      repeat split; cbn [fst snd]; [exact Hx|cbn [length] in Hn; lia|]. lia.
    - apply IH; [intros c' Hc'; apply H; right; exact Hc'|cbn [length] in Hn; lia].
  Qed.
  Lemma row_one i (l : lin) i' z : row_val (map (fun '(j, x) => (i, j, x)) l) i' z = if Nat.eqb i i' then lin_val l z else 0.
  Proof.
    unfold row_val, lin_val. rewrite map_map. induction l as [|[j x] l IH]; cbn [map].
    - destruct (Nat.eqb i i'); reflexivity.
    - rewrite fsum_cons, IH. destruct (Nat.eqb i i'); [rewrite fsum_cons; reflexivity|ring].
  Qed.
  Lemma rows_val_nth sel cs : forall k i z, 
    row_val (rows_val sel k cs) (k + i) z = match nth_error cs i with Some c => lin_val (sel c) z | None => 0 end.
  Proof.
    unfold rows_val. induction cs as [|c cs IH]; intros k i z; cbn [length seq combine map concat].
    - destruct i; reflexivity.
    - rewrite row_val_app, row_one. destruct i as [|i].
      + rewrite Nat.add_0_r, Nat.eqb_refl. cbn [nth_error].
        replace (row_val _ k z) with (0 : K); [ring|]. symmetry.
        assert (G : forall m, (k < m)%nat -> row_val (concat (map (fun '(i, c0) => map (fun '(j, x) => (i, j, x)) (sel c0)) (combine (seq m (length cs)) cs))) k z = 0).
        { clear. induction cs as [|c cs IH]; intros m Hm; [reflexivity|]. cbn [length seq combine map concat].
          rewrite row_val_app, row_one, IH by lia. destruct (Nat.eqb_spec m k); [lia|ring]. }
        apply G. lia.
      + cbn [nth_error]. rewrite <- Nat.add_succ_comm. rewrite IH. destruct (Nat.eqb_spec k (S k + i)); [lia|]. ring.
  Qed.
  Lemma lin_val_app (l : lin) w w' : (forall j x, In (j, x) l -> (j < length w)%nat) -> lin_val l (w ++ w') = lin_val l w.
  Proof.
    unfold lin_val. induction l as [|[j x] l IH]; intro H; [reflexivity|]. cbn [map]. rewrite !fsum_cons, IH.
    - rewrite app_nth1; [reflexivity|]. apply (H j x). left. reflexivity.
    - intros j' x' Hin. apply (H j' x'). right. exact Hin.
  Qed.
  Lemma cons_map_in {F : Type} (f : F -> K) (ds : list (list (nat * F) * list (nat * F) * list (nat * F))) (Q : nat -> Prop) a b c :
    (forall a b c, In (a, b, c) ds -> (forall j (x : F), In (j, x) a -> Q j) /\ (forall j x, In (j, x) b -> Q j) /\ (forall j x, In (j, x) c -> Q j)) ->
    In (a, b, c) (cons_map f ds) ->
    (forall j x, In (j, x) a -> Q j) /\ (forall j x, In (j, x) b -> Q j) /\ (forall j x, In (j, x) c -> Q j).
  Proof.
    intros H Hin. unfold cons_map in Hin. apply in_map_iff in Hin. destruct Hin as ([[a' b'] c'] & E & Hin). injection E as <- <- <-.
    destruct (H _ _ _ Hin) as (H1 & H2 & H3). unfold lin_map.
    repeat split; intros j x Hj; apply in_map_iff in Hj; destruct Hj as ([j' x'] & E & Hj); injection E as <- <-; eauto.
  Qed.
  Lemma convert_ok {F : Type} (to_repr : F -> bytes) (f : F -> K) (r : circom F) ni w inputs :
    coeffs (fun x => parse (to_repr x) = Some (f x)) (c_constraints r) ->
    wires_ok (c_num_variables r) (c_constraints r) -> length w = c_num_variables r -> length inputs = ni ->
    exists I, convert parse digest_of to_repr r ni = Ok I /\ rc_inputs (inst I) = ni /\
      exists b, instance_is_sat I w inputs = Ok b /\ (b = true <-> circom_sat (cons_map f (c_constraints r)) w).
  Proof.
    intros Hp Hw0 HL Hi. unfold convert. set (cs0 := c_constraints r) in *. set (nv := c_num_variables r) in *.
    set (cs := cons_map f cs0). assert (Lc : length cs0 = length cs) by (symmetry; apply map_length).
    assert (Hw : wires_ok nv cs) by (intros a b c Hin; exact (cons_map_in f cs0 (fun j => (j < nv)%nat) a b c Hw0 Hin)).
    assert (TA : triples_ok parse (length cs0) nv ni (rows_of to_repr (fun c => fst (fst c)) cs0) (rows_val (fun c => fst (fst c)) 0 cs)).
    { apply rows_of_ok; [reflexivity| |rewrite Nat.add_0_l; apply Nat.le_refl]. intros [[a b] c] Hc j x Hj.
      split; [exact (proj1 (Hw0 a b c Hc) j x Hj)|exact (proj1 (Hp a b c Hc) j x Hj)]. }
    assert (TB : triples_ok parse (length cs0) nv ni (rows_of to_repr (fun c => snd (fst c)) cs0) (rows_val (fun c => snd (fst c)) 0 cs)).
    { apply rows_of_ok; [reflexivity| |rewrite Nat.add_0_l; apply Nat.le_refl]. intros [[a b] c] Hc j x Hj.
      split; [exact (proj1 (proj2 (Hw0 a b c Hc)) j x Hj)|exact (proj1 (proj2 (Hp a b c Hc)) j x Hj)]. }
    assert (TC : triples_ok parse (length cs0) nv ni (rows_of to_repr (fun c => snd c) cs0) (rows_val (fun c => snd c) 0 cs)).
    { apply rows_of_ok; [reflexivity| |rewrite Nat.add_0_l; apply Nat.le_refl]. intros [[a b] c] Hc j x Hj.
      split; [exact (proj2 (proj2 (Hw0 a b c Hc)) j x Hj)|exact (proj2 (proj2 (Hp a b c Hc)) j x Hj)]. }
    rewrite Lc in TA, TB, TC. rewrite Lc.
    destruct (is_sat_ok _ _ _ _ _ _ _ _ _ w inputs TA TB TC) as (I & E & Hs & _).
    destruct (instance_new_ok _ _ _ _ _ _ _ _ _ TA TB TC) as (I' & E' & EI & _). rewrite E in E'. injection E' as <-.
    rewrite E. exists I. split; [reflexivity|]. split; [rewrite EI; reflexivity|].
    destruct (pad_vars_spec nv ni) as (V1 & _). destruct (Hs ltac:(lia) Hi) as (b & Eb & Hb). exists b. split; [exact Eb|].
    rewrite Hb. assert (Ef : fit nv w = w).
    { unfold fit. rewrite firstn_app, HL, Nat.sub_diag, firstn_all2 by lia. cbn [firstn]. apply app_nil_r. }
    rewrite Ef. unfold sat, circom_sat. rewrite Forall_forall. split.
    - intros H [[a b'] c] Hin. destruct (In_nth_error _ _ Hin) as [i Hn].
      assert (Hlt : (i < length cs)%nat) by (apply nth_error_Some; congruence).
      specialize (H i Hlt). pose proof (rows_val_nth (fun c => fst (fst c)) cs 0 i) as RA. pose proof (rows_val_nth (fun c => snd (fst c)) cs 0 i) as RB.
      pose proof (rows_val_nth (fun c => snd c) cs 0 i) as RC. rewrite Hn in RA, RB, RC. cbn [Nat.add fst snd] in RA, RB, RC.
      rewrite RA, RB, RC in H. destruct (Hw a b' c Hin) as (WA & WB & WC).
      rewrite !lin_val_app in H by (rewrite HL; assumption). exact H.
    - intros H i Hlt. destruct (nth_error cs i) as [[[a b'] c]|] eqn:Hn; [|apply nth_error_None in Hn; lia].
      pose proof (nth_error_In _ _ Hn) as Hin. specialize (H _ Hin). cbn beta iota in H.
      pose proof (rows_val_nth (fun c => fst (fst c)) cs 0 i) as RA. pose proof (rows_val_nth (fun c => snd (fst c)) cs 0 i) as RB.
      pose proof (rows_val_nth (fun c => snd c) cs 0 i) as RC. rewrite Hn in RA, RB, RC. cbn [Nat.add fst snd] in RA, RB, RC.
      rewrite RA, RB, RC. destruct (Hw a b' c Hin) as (WA & WB & WC).
      rewrite !lin_val_app by (rewrite HL; assumption). exact H.
  Qed.
  Lemma lin_val_zero (l : lin) n : lin_val l (repeat 0 n) = 0.
  Proof. unfold lin_val. induction l as [|[j x] l IH]; [reflexivity|]. cbn [map]. rewrite fsum_cons, IH, nth_repeat0. ring. Qed.
  Lemma circom_sat_zero cs n : circom_sat cs (repeat 0 n).
  Proof. unfold circom_sat. apply Forall_forall. intros [[a b] c] _. rewrite !lin_val_zero. ring. Qed.
End Proofs.
