(** Completeness of the R1CS proof. *)
From Coq Require Import String List Arith Lia Bool Field Ring.
From Verif Require Import Base ListAux Field Vec MathModel PolyModel PolySpec PolyProofs PolyImp R1csModel R1csSpec R1csProofs R1csMore CommitModel SigmaModel CommitSpec CommitProofs SigmaProofs BulletProofs LogProofs SumModel SumSpec SumComplete SumZk SumApi NizkModel.
Import ListNotations.
Local Open Scope fld_scope.

Section NP.
  Context {K : Fld} {G : Mod K} {E : Enc G}.
  Variable H : log E -> K.
  Hypothesis two : (of_nat 2 : K) <> 0.
  Hypothesis three : (of_nat 3 : K) <> 0.
  Add Field Knz : (fth K).
  Local Notation cmp := (CommitModel.compress E).

  (** ** The sparse polynomial of the inputs *)
  Lemma sp_chi_ok (r : list K) : forall i acc, sp_chi (get_bits i (length r)) r acc = acc * chi r i.
  Proof.
    induction r as [|x r IH]; intros i acc; [cbn; ring|].
    unfold get_bits. cbn [length seq map sp_chi chi]. rewrite <- seq_shift, map_map. replace (S (length r) - 0 - 1)%nat with (length r) by lia.
    rewrite (map_ext _ (fun s => Nat.testbit i (length r - s - 1))) by (intro s; f_equal).
    fold (get_bits i (length r)). rewrite IH. ring.
  Qed.
  Lemma get_bits_length i n : length (get_bits i n) = n.
  Proof. unfold get_bits. rewrite map_length, seq_length. reflexivity. Qed.
  Lemma sp_evaluate_ok n (Z : list (nat * K)) r : n = length r -> sp_evaluate n Z r = Ok (fsum (map (fun x => chi r (fst x) * snd x) Z)).
  Proof.
    intros ->. unfold sp_evaluate. rewrite Nat.eqb_refl. rewrite (mapM_ok _ (fun x => chi r (fst x) * snd x)); [reflexivity|].
    intros [i v] _. unfold compute_chi. rewrite get_bits_length, Nat.eqb_refl. cbn [bind fst snd]. rewrite sp_chi_ok. f_equal. ring.
  Qed.
  Lemma mle_prefix (l r : list K) k : (length l <= 2 ^ length r)%nat ->
    mle (l ++ repeat 0 k) r = sumn (length l) (fun i => nth i l 0 * chi r i).
  Proof.
    intro L. unfold mle. replace (2 ^ length r)%nat with (length l + (2 ^ length r - length l))%nat by lia. rewrite sumn_add.
    rewrite (sumn_zero _ (2 ^ length r - length l)).
    - transitivity (sumn (length l) (fun i => nth i (l ++ repeat 0 k) 0 * chi r i)); [ring|]. apply sumn_ext. intros i Hi. rewrite app_nth1 by lia. reflexivity.
    - intros i _. rewrite app_nth2 by lia. rewrite nth_repeat0. ring.
  Qed.
  Lemma input_entries_sum (input r : list K) : fsum (map (fun x => chi r (fst x) * snd x) (input_entries input)) =
    sumn (length (1 :: input)) (fun i => nth i (1 :: input) 0 * chi r i).
  Proof.
    unfold input_entries. cbn [map]. rewrite fsum_cons. cbn [length]. rewrite sumn_S. cbn [nth fst snd]. f_equal; [ring|].
    assert (X : forall (l : list K) k, fsum (map (fun x => chi r (fst x) * snd x) (map2 (fun i x => (i + 1, x)%nat) (seq k (length l)) l)) =
                sumn (length l) (fun i => nth i l 0 * chi r (S (k + i)))).
    { induction l as [|x l IH]; intro k; [reflexivity|]. cbn [length seq map2 map]. rewrite fsum_cons, IH, sumn_S. cbn [nth fst snd].
      f_equal; [replace (k + 1)%nat with (S (k + 0)) by lia; ring|]. apply sumn_ext. intros i _. f_equal. f_equal. lia. }
    exact (X input 0%nat).
  Qed.
  Lemma input_eval_ok (input r : list K) n k : n = length r -> (length input < 2 ^ n)%nat ->
    sp_evaluate n (input_entries input) r = Ok (mle ([1] ++ input ++ repeat 0 k) r).
  Proof.
    intros -> L. rewrite sp_evaluate_ok by reflexivity. f_equal. rewrite input_entries_sum.
    symmetry. exact (mle_prefix (1 :: input) r k L).
  Qed.

  (** ** The two sum-check claims *)
  Lemma full_z_length (vars input : list K) : (length input < length vars)%nat -> length (full_z vars input) = (2 * length vars)%nat.
  Proof. intro L. unfold full_z. rewrite !app_length, repeat_length. cbn [length]. lia. Qed.
  Lemma full_z_nth (vars input : list K) j : nth j (full_z vars input) 0 = nth j (vars ++ [1] ++ input) 0.
  Proof.
    unfold full_z. rewrite (app_assoc [1]). rewrite (app_assoc vars). destruct (Nat.lt_ge_cases j (length (vars ++ [1] ++ input))) as [L|L].
    - rewrite app_nth1 by exact L. reflexivity.
    - rewrite app_nth2 by exact L. rewrite nth_repeat0. symmetry. apply nth_overflow. exact L.
  Qed.
  Lemma row_val_ext (M : list (nat * nat * K)) i z z' : (forall j, nth j z 0 = nth j z' 0) -> row_val M i z = row_val M i z'.
  Proof. intro X. unfold row_val. f_equal. apply map_ext. intros [[r c] v]. rewrite X. reflexivity. Qed.

  Record sized (I : r1cs K) (a b : nat) : Prop := {
    sz_cons : rc_cons I = (2 ^ a)%nat; sz_vars : rc_vars I = (2 ^ b)%nat; sz_inputs : (rc_inputs I < 2 ^ b)%nat;
    sz_A : snx (rc_A I) = a /\ sny (rc_A I) = S b /\ ents_ok (2 ^ a) (2 ^ S b) (sM (rc_A I));
    sz_B : snx (rc_B I) = a /\ sny (rc_B I) = S b /\ ents_ok (2 ^ a) (2 ^ S b) (sM (rc_B I));
    sz_C : snx (rc_C I) = a /\ sny (rc_C I) = S b /\ ents_ok (2 ^ a) (2 ^ S b) (sM (rc_C I)) }.

  (** what the bound table contributes to the second sum *)
  Lemma table_claim (P : sparse K) a b rx z t Mz : length rx = a -> length z = (2 ^ b)%nat -> ents_ok (2 ^ a) (2 ^ b) (sM P) ->
    sparse_eval_table P (eq_evals rx) (2 ^ a) (2 ^ b) = Ok t -> sparse_multiply_vec P (2 ^ a) (2 ^ b) z = Ok Mz ->
    sumn (2 ^ b) (fun j => nth j z 0 * nth j t 0) = mle Mz rx.
  Proof.
    intros Lr Lz O Et Em.
    destruct (eval_table_ok K P (eq_evals rx) (2 ^ a) (2 ^ b)) as (t' & Et' & _ & Nt); [rewrite eq_evals_length, Lr; reflexivity|exact O|].
    rewrite Et in Et'. injection Et' as <-.
    destruct (multiply_vec_ok K P (2 ^ a) (2 ^ b) z Lz O) as (m' & Em' & _ & Nm). rewrite Em in Em'. injection Em' as <-.
    transitivity (sumn (2 ^ b) (fun j => sumn (2 ^ a) (fun i => chi rx i * mat (triples (sM P)) i j * nth j z 0))).
    - apply sumn_ext. intros j Hj. rewrite Nt by exact Hj. rewrite <- sumn_scale. apply sumn_ext. intros i Hi.
      rewrite eq_evals_nth by (rewrite Lr; exact Hi). ring.
    - rewrite (sumn_swap K). unfold mle. rewrite Lr. apply sumn_ext. intros i Hi. rewrite Nm by exact Hi.
      rewrite (row_val_mat K _ i (2 ^ b)) by (intros e He; apply (O e He)).
      transitivity (chi rx i * sumn (2 ^ b) (fun j => mat (triples (sM P)) i j * nth j z 0)); [|ring].
      rewrite <- sumn_scale. apply sumn_ext. intros j _. ring.
  Qed.

  Lemma veqb_refl (l : list K) : veqb l l = true.
  Proof. induction l as [|x l IH]; [reflexivity|]. cbn [veqb]. rewrite IH. destruct (feqb_spec K x x); [reflexivity|congruence]. Qed.
  Lemma veqb_eq (l : list K) : forall l', veqb l l' = true -> l = l'.
  Proof.
    induction l as [|x l IH]; intros [|y l'] X; try discriminate; [reflexivity|]. cbn [veqb] in X. apply andb_prop in X. destruct X as [X Y].
    destruct (feqb_spec K x y) as [->|]; [|discriminate]. f_equal. apply IH, Y.
  Qed.

  Lemma r1cs_evaluate_ok (I : r1cs K) a b rx ry : sized I a b -> length rx = a -> length ry = S b ->
    r1cs_evaluate I rx ry = Ok (mle (mat_table (triples (sM (rc_A I))) (2 ^ a) (2 ^ S b)) (rx ++ ry),
                                mle (mat_table (triples (sM (rc_B I))) (2 ^ a) (2 ^ S b)) (rx ++ ry),
                                mle (mat_table (triples (sM (rc_C I))) (2 ^ a) (2 ^ S b)) (rx ++ ry)).
  Proof.
    intros [_ _ _ (a1 & a2 & a3) (b1 & b2 & b3) (c1 & c2 & c3)] Lx Ly. unfold r1cs_evaluate.
    rewrite multi_evaluate_ok; [rewrite Lx, Ly; reflexivity|].
    rewrite Lx, Ly. intros P [<-|[<-|[<-|[]]]]; (split; [assumption|split; assumption]).
  Qed.

  Lemma rgens_facts b (stream : nat -> G) (g : r1csgens G) : r1csgens_new (2 ^ b) stream = Ok g ->
    rg1 g = dg1 (rgpc g) /\ gens_ok (rg1 g) /\ gn (rg1 g) = 1%nat /\ gens_ok (rg3 g) /\ gn (rg3 g) = 3%nat /\ gens_ok (rg4 g) /\ gn (rg4 g) = 4%nat /\
    pcgens_new b stream = Ok (rgpc g).
  Proof.
    unfold r1csgens_new. rewrite log_2_pow. cbn [bind]. destruct (pcgens_new b stream) as [pc| |] eqn:Ep; try discriminate. cbn [bind].
    intro X. injection X as <-. cbn [rg1 rg3 rg4 rgpc]. unfold pcgens_new in Ep. rewrite dgens_new_ok in Ep. injection Ep as <-. rewrite !gens_new_G. cbn [dg1 gn].
    repeat split; try reflexivity; unfold gens_ok; cbn [gG gn]; apply tab_length.
  Qed.

  Lemma kp_prove_comm (g : gens G) (tr tape : log E) x r pf C tr' tape' : gens_ok g -> gn g = 1%nat ->
    kp_prove H g tr tape x r = Ok (pf, C, tr', tape') -> C = cmp (ped1 g x r).
  Proof.
    intros Hg N X. unfold kp_prove, random_scalar, challenge in X. rewrite (commit1_ok _ _ g Hg N) in X. cbn [bind] in X.
    rewrite (commit1_ok _ _ g Hg N) in X. cbn [bind] in X. injection X as <- <- <- <-. reflexivity.
  Qed.
  Lemma pp_prove_comm (g : gens G) (tr tape : log E) x rX y rY z rZ pf X Y Z tr' tape' : gens_ok g -> gn g = 1%nat ->
    pp_prove H g tr tape x rX y rY z rZ = Ok (pf, X, Y, Z, tr', tape') ->
    X = cmp (ped1 g x rX) /\ Y = cmp (ped1 g y rY) /\ Z = cmp (ped1 g z rZ).
  Proof.
    intros Hg N Q. unfold pp_prove, random_scalar, challenge in Q.
    repeat (rewrite (commit1_ok _ _ g Hg N) in Q; cbn [bind] in Q). rewrite unpack_comp in Q. cbn [bind] in Q.
    match type of Q with bind ?c _ = _ => destruct c eqn:Ec end; try discriminate. cbn [bind] in Q.
    injection Q as <- <- <- <- <- <-. repeat split; reflexivity.
  Qed.
  Lemma ep_complete' (g : gens G) (tr tape : log E) (v s1 s2 : K) : gens_ok g -> gn g = 1%nat ->
    exists pf C1 C2 tr' tape', ep_prove H g tr tape v s1 v s2 = Ok (pf, C1, C2, tr', tape') /\
      ep_verify H pf g tr (cmp (ped1 g v s1)) (cmp (ped1 g v s2)) = Ok tr'.
  Proof.
    intros Hg N. destruct (ep_complete H g tr tape v s1 s2 Hg N) as (pf & C1 & C2 & tr' & tape' & Ep & _ & _ & V).
    destruct (ep_prove_comm H g tr tape v s1 v s2 pf C1 C2 tr' tape' Hg N Ep) as [-> ->].
    exists pf, (cmp (ped1 g v s1)), (cmp (ped1 g v s2)), tr', tape'. split; assumption.
  Qed.

  Lemma r1cs_complete (I : r1cs K) (a b : nat) (vars input : list K) stream (g : r1csgens G) (tr tape : log E) :
    sized I a b -> (1 <= a)%nat -> (b - b / 2 < 32)%nat -> length vars = (2 ^ b)%nat -> length input = rc_inputs I ->
    r1csgens_new (2 ^ b) stream = Ok g ->
    sat (2 ^ a) (triples (sM (rc_A I))) (triples (sM (rc_B I))) (triples (sM (rc_C I))) (vars ++ [1] ++ input) ->
    match r1cs_prove H I vars input g tr tape with
    | Ok (pf, rx, ry, tr', tape') => length rx = a /\ length ry = S b /\
        exists evals, r1cs_evaluate I rx ry = Ok evals /\
        r1cs_verify H pf (rc_vars I) (rc_cons I) input evals tr g = Ok (rx, ry, tr')
    | _ => unless H "u" 0 (b - b / 2) False
    end.
  Proof.
    intros S Ha Hb Lv Li Hg Sat. pose proof S as [Ec Ev Ei (xa & ya & OA) (xb & yb & OB) (xc & yc & OC)].
    destruct (rgens_facts b stream g Hg) as (E1 & G1 & N1 & G3 & N3 & G4 & N4 & Epc).
    assert (Lz : length (full_z vars input) = (2 ^ Datatypes.S b)%nat) by (rewrite full_z_length, Lv, pow2_S; lia).
    unfold r1cs_prove. replace (Nat.ltb (length input) (length vars)) with true by (symmetry; apply Nat.ltb_lt; lia).
    destruct (dense_new_ok K vars b Lv) as (Ed & Od & Ld). rewrite Ed. cbn [bind].
    destruct (poly_commit_ok H vars b (rgpc g) stream (Some tape) Lv Epc) as (blinds & tp' & Lbl & _ & Ecm).
    set (C := map _ _) in Ecm. rewrite Ecm. cbn [bind].
    assert (Htp : exists tape1, tp' = Some tape1).
    { unfold poly_commit in Ecm. destruct (Nat.eqb (length _) _); [|discriminate]. destruct (compute_factored_lens _) as [ln rn]. destruct (Nat.eqb _ _); [|discriminate].
      unfold random_vector in Ecm. destruct (challenges H "poly_blinds" _ tape) as [v t]. destruct (commit_inner _ _ _); try discriminate. cbn [bind] in Ecm. injection Ecm as _ _ <-. eexists. reflexivity. }
    destruct Htp as [tape1 ->]. cbn [of_opt bind]. rewrite Ec, Lz, !log_2_pow. cbn [bind].
    set (tr0 := app_commitment _ _ _).
    pose proof (challenges_length H "challenge_tau" a tr0) as Lt. destruct (challenges H "challenge_tau" a tr0) as [tau tr1] eqn:Etau. cbn [fst] in Lt.
    assert (Let : length (eq_evals tau) = (2 ^ a)%nat) by (rewrite eq_evals_length, Lt; reflexivity).
    destruct (dense_new_ok K (eq_evals tau) a Let) as (Et & Ot & LLt). rewrite Et. cbn [bind].
    set (z := full_z vars input) in *.
    destruct (multiply_vec_ok K (rc_A I) (2 ^ a) _ z Lz OA) as (la & Ela & Lla & Nla).
    destruct (multiply_vec_ok K (rc_B I) (2 ^ a) _ z Lz OB) as (lb & Elb & Llb & Nlb).
    destruct (multiply_vec_ok K (rc_C I) (2 ^ a) _ z Lz OC) as (lc & Elc & Llc & Nlc).
    destruct (dense_new_ok K la a Lla) as (Eda & Oda & Lda). destruct (dense_new_ok K lb a Llb) as (Edb & Odb & Ldb). destruct (dense_new_ok K lc a Llc) as (Edc & Odc & Ldc).
    unfold r1cs_multiply_vec. rewrite Ec, Lz, !Nat.eqb_refl, Ev.
    assert (Hlt : Nat.ltb (2 ^ b) (2 ^ Datatypes.S b) = true) by (apply Nat.ltb_lt; rewrite pow2_S; pose proof (pow2_pos b); lia). rewrite Hlt.
    rewrite Ela. cbn [bind]. rewrite Eda. cbn [bind]. rewrite Elb. cbn [bind]. rewrite Edb. cbn [bind]. rewrite Elc. cbn [bind]. rewrite Edc. cbn [bind].
    (* phase one *)
    unfold prove_phase_one.
    destruct (api_additive H two three (fun a0 b0 c d => a0 * (b0 * c - d)) a _ _ _ _ 0 0 (rg1 g) (rg4 g) tr1 tape1 add_cubic G1 N1 G4 N4 Ha Ot Oda Odb Odc eq_refl eq_refl eq_refl eq_refl) as (sc1 & rx & ps1 & bl1 & tr2 & tape2 & Lrx & Ep1 & Dl & V1).
    { rewrite LLt, Lda, Ldb, Ldc. symmetry. apply sumn_zero. intros i Hi. rewrite Nla, Nlb, Nlc by exact Hi.
      rewrite !(row_val_ext _ i z (vars ++ [1] ++ input)) by (intro j; apply full_z_nth). rewrite (Sat i Hi). ring. }
    rewrite LLt, Lda, Ldb, Ldc in Ep1, V1. rewrite Ep1. cbn [bind].
    replace (forallb (fun p => Nat.eqb (dlen p) 1) ps1) with true by (symmetry; apply forallb_forall; intros p Hp; apply Nat.eqb_eq, Dl, Hp).
    cbn [idx nth_error of_opt bind]. unfold random_scalar at 1 2 3 4. unfold challenge at 1 2 3 4.
    set (tcl := mle (eq_evals tau) rx) in *. set (Az := mle la rx) in *. set (Bz := mle lb rx) in *. set (Cz := mle lc rx) in *.
    match goal with |- context [kp_prove H (rg1 g) tr2 ?tp Cz ?bC] => set (tape3 := tp); set (bCz := bC) end.
    match goal with |- context [pp_prove H (rg1 g) _ _ Az ?bA Bz ?bB _ ?bP] => set (bAz := bA); set (bBz := bB); set (bPr := bP) end.
    destruct (kp_complete H (rg1 g) tr2 tape3 Cz bCz G1 N1) as (pok & cC & tr3 & tape4 & Ek & _ & Vk). rewrite Ek. cbn [bind].
    pose proof (kp_prove_comm _ _ _ _ _ _ _ _ _ G1 N1 Ek) as ->.
    destruct (pp_complete H (rg1 g) tr3 tape4 Az bAz Bz bBz bPr G1 N1) as (prod & cA & cB & cP & tr4 & tape5 & Epp & _ & _ & _ & Vp). rewrite Epp. cbn [bind].
    destruct (pp_prove_comm _ _ _ _ _ _ _ _ _ _ _ _ _ _ _ G1 N1 Epp) as (-> & -> & ->).
    set (tr5 := app_point "comm_prod_Az_Bz_claims" _ _).
    destruct (ep_complete' (rg1 g) tr5 tape5 ((Az * Bz - Cz) * tcl) (tcl * (bPr - bCz)) bl1 G1 N1) as (eq1 & c1 & c2 & tr6 & tape6 & Ee1 & Ve1). rewrite Ee1. cbn [bind].
    unfold challenge at 1 2 3.
    match goal with |- context [MChal "challenege_Cz" :: ?t] => set (trC := t) end.
    set (rA := H (MChal "challenege_Az" :: tr6)). set (rB := H trC). set (rC := H (MChal "challenege_Cz" :: trC)).
    (* phase two *)
    destruct (eval_table_ok K (rc_A I) (eq_evals rx) (2 ^ a) (2 ^ Datatypes.S b)) as (ta & Eta & Lta & Nta); [rewrite eq_evals_length, Lrx; reflexivity|exact OA|].
    destruct (eval_table_ok K (rc_B I) (eq_evals rx) (2 ^ a) (2 ^ Datatypes.S b)) as (tb & Etb & Ltb & Ntb); [rewrite eq_evals_length, Lrx; reflexivity|exact OB|].
    destruct (eval_table_ok K (rc_C I) (eq_evals rx) (2 ^ a) (2 ^ Datatypes.S b)) as (tc & Etc & Ltc & Ntc); [rewrite eq_evals_length, Lrx; reflexivity|exact OC|].
    unfold r1cs_eval_table. rewrite Ec, Nat.eqb_refl, Ev, Hlt, Eta. cbn [bind]. rewrite Etb. cbn [bind]. rewrite Etc. cbn [bind]. rewrite Lta, Ltb, Ltc, !Nat.eqb_refl.
    set (abc := map2 fadd _ _). assert (Labc : length abc = (2 ^ Datatypes.S b)%nat) by (unfold abc; rewrite !map2_length, map_length; lia).
    assert (Nabc : forall j, (j < 2 ^ Datatypes.S b)%nat -> nth j abc 0 = rA * nth j ta 0 + rB * nth j tb 0 + rC * nth j tc 0).
    { intros j Hj. unfold abc. rewrite (map2_nth _ _ _ _ 0 0) by (rewrite ?map2_length, ?map_length; lia).
      rewrite (map2_nth _ _ _ _ 0 0) by lia. rewrite (nth_map0 _ _ _ 0) by lia. reflexivity. }
    destruct (dense_new_ok K z _ Lz) as (Edz & Odz & Ldz). destruct (dense_new_ok K abc _ Labc) as (Edabc & Odabc & Ldabc).
    rewrite Edz. cbn [bind]. rewrite Edabc. cbn [bind]. unfold prove_phase_two.
    match goal with |- context [prove_quad H ?c ?bl _ _ _ _ _ _ ?t tape6] => set (claim2 := c); set (blind2 := bl); set (tr7 := t) end.
    destruct (api_quad H two (fun a0 b0 => a0 * b0) (Datatypes.S b) _ _ claim2 blind2 (rg1 g) (rg3 g) tr7 tape6 prod2_quad G1 N1 G3 N3 ltac:(lia) Odz Odabc eq_refl eq_refl)
      as (sc2 & ry & ps2 & bl2 & tr8 & tape7 & Lry & Ep2 & V2).
    { rewrite Ldz, Ldabc. unfold claim2, Az, Bz, Cz.
      rewrite <- (table_claim _ a _ rx z ta la Lrx Lz OA Eta Ela), <- (table_claim _ a _ rx z tb lb Lrx Lz OB Etb Elb), <- (table_claim _ a _ rx z tc lc Lrx Lz OC Etc Elc).
      rewrite <- !sumn_scale, <- !sumn_plus. apply sumn_ext. intros j Hj. rewrite Nabc by exact Hj. ring. }
    rewrite Ldz, Ldabc in Ep2, V2. rewrite Ep2. cbn [bind]. rewrite Lry. change (Nat.leb 1 (Datatypes.S b)) with true. cbv iota.
    destruct ry as [|ry0 ryt]; [discriminate|]. cbn [tl]. assert (Lryt : length ryt = b) by (cbn in Lry; lia).
    assert (Eev : dense_evaluate (MkDense b (2 ^ b) vars) ryt = Ok (mle vars ryt)).
    { pose proof (evaluate_ok K vars ryt) as X. rewrite Lryt in X. specialize (X Lv). rewrite Ed in X. exact X. }
    rewrite Eev. cbn [bind]. unfold random_scalar at 1. unfold challenge at 1.
    match goal with |- context [pe_prove H _ _ _ _ (Some ?x) _ tr8 ?t] => set (beval := x); set (tape8 := t) end.
    rewrite <- Lryt in Lv, Hb, Ed, Epc, Ecm.
    destruct (pe_complete H vars ryt _ (rgpc g) stream (Some tape) C blinds (Some tape1) (Some blinds) (Some beval) tr8 tape8 Lv Hb Ed Epc Ecm (or_introl eq_refl)) as [Q1 Q2].
    rewrite Lryt in Q1, Q2. cbn [blind_of] in Q1.
    destruct (pe_prove H (MkDense b (2 ^ b) vars) (Some blinds) ryt (mle vars ryt) (Some beval) (rgpc g) tr8 tape8) as [[[[epf cry] tr9] tape9]| |] eqn:Epe.
    2:{ refine (unless_mono H _ _ _ _ _ _ Q2). intros [x X]. discriminate X. }
    2:{ refine (unless_mono H _ _ _ _ _ _ Q2). intros [x X]. discriminate X. }
    destruct (Q1 _ _ _ _ eq_refl) as (-> & Vpe & _). clear Q1 Q2. cbn [bind idx nth_error of_opt]. rewrite <- E1. rewrite <- E1 in Vpe.
    set (mz := mle z (ry0 :: ryt)) in *. set (mabc := mle abc (ry0 :: ryt)) in *.
    destruct (ep_complete' (rg1 g) tr9 tape9 (mz * mabc) (mabc * ((1 - ry0) * beval)) bl2 G1 N1) as (eq2 & d1 & d2 & tr10 & tape10 & Ee2 & Ve2). rewrite Ee2. cbn [bind].
    split; [exact Lrx|]. split; [exact Lry|].
    eexists. split; [apply (r1cs_evaluate_ok I a b rx (ry0 :: ryt) S Lrx Lry)|].
    unfold r1cs_verify. cbn [rp_comm_vars rp_sc1 rp_claims rp_pok rp_prod rp_eq1 rp_sc2 rp_comm_ry rp_eval rp_eq2].
    rewrite ?Ec, ?Ev, log_2_pow. cbn [bind]. replace (2 * 2 ^ b)%nat with (2 ^ Datatypes.S b)%nat by (rewrite pow2_S; lia). rewrite log_2_pow. cbn [bind].
    fold tr0. rewrite Etau. rewrite (commit1_ok _ _ _ G1 N1). cbn [bind]. rewrite V1. cbn [bind]. rewrite Vk. cbn [bind]. rewrite Vp. cbn [bind].
    fold tr5. rewrite Lrx, Lt, Nat.leb_refl. rewrite !unpack_comp. cbn [bind].
    destruct (gens_ok1 (rg1 g) G1 N1) as [g1 Hg1].
    match goal with |- context [fprod ?l] => assert (Etcl : fprod l = tcl) end.
    { unfold tcl. rewrite eq_mle by congruence. assert (Lx2 : length rx = length tau) by congruence. clear - Lx2. revert tau Lx2. induction rx as [|x rx IH]; intros [|t tau] L; try discriminate; [reflexivity|].
      cbn [map2]. rewrite !fprod_cons, IH by (cbn in L; lia). ring. }
    rewrite Etcl.
    replace (gmul tcl _) with (ped1 (rg1 g) ((Az * Bz - Cz) * tcl) (tcl * (bPr - bCz))) by (rewrite !(ped1_unfold _ g1 _ _ Hg1); module_red; ring).
    replace (tcl * (Az * Bz - Cz)) with ((Az * Bz - Cz) * tcl) by ring.
    rewrite Ve1. cbn [bind]. unfold challenge at 1 2 3. fold rA. fold trC. fold rB. fold rC.
    rewrite msm_ok by (cbn; lia). cbn [bind lincomb].
    fold tr7. replace (gadd (gmul rA _) _) with (ped1 (rg1 g) claim2 blind2) by (unfold claim2, blind2; rewrite !(ped1_unfold _ g1 _ _ Hg1); module_red; ring).
    rewrite V2. cbn [bind]. rewrite Lry. change (Nat.leb 1 (Datatypes.S b)) with true. cbv iota. cbn [tl]. rewrite Vpe. cbn [bind]. rewrite log_2_pow. cbn [bind].
    rewrite (input_eval_ok input ryt b (length vars - length input - 1)) by (symmetry in Lryt; try exact Lryt; lia). cbn [bind idx nth_error of_opt].
    rewrite ?unpack_comp. cbn [bind]. rewrite <- ?E1, ?(commit1_ok _ _ _ G1 N1). cbn [bind]. rewrite msm_ok by (cbn; lia). cbn [bind lincomb].
    set (inp := mle ([1] ++ input ++ repeat 0 _) ryt).
    assert (Emz : mz = (1 - ry0) * mle vars ryt + ry0 * inp) by (unfold mz, z, full_z; apply mle_app; exact Lv).
    match goal with |- context [gmul (rA * ?x + rB * ?y + rC * ?w) _] => assert (Emabc : mabc = rA * x + rB * y + rC * w) end.
    { assert (TE : forall P t, ents_ok (2 ^ a) (2 ^ Datatypes.S b) (sM P) -> sparse_eval_table P (eq_evals rx) (2 ^ a) (2 ^ Datatypes.S b) = Ok t ->
                 mle t (ry0 :: ryt) = mle (mat_table (triples (sM P)) (2 ^ a) (2 ^ Datatypes.S b)) (rx ++ ry0 :: ryt)).
      { intros P t O Et0. destruct (table_then_eval K P rx (ry0 :: ryt)) as (l & El & _ & Ml); [rewrite Lrx, Lry; exact O|].
        rewrite Lrx, Lry in El, Ml. rewrite Et0 in El. injection El as <-. exact Ml. }
      rewrite <- (TE _ ta OA Eta), <- (TE _ tb OB Etb), <- (TE _ tc OC Etc).
      unfold mabc, mle. rewrite Lry. rewrite <- !sumn_scale, <- !sumn_plus. apply sumn_ext. intros j Hj. rewrite Nabc by exact Hj. ring. }
    rewrite <- Emabc.
    match goal with |- context [cmp (gmul mabc ?Q)] => replace (gmul mabc Q) with (ped1 (rg1 g) (mz * mabc) (mabc * ((1 - ry0) * beval))) by (rewrite Emz, !(ped1_unfold _ g1 _ _ Hg1); module_red; ring) end.
    rewrite Ve2. cbn [bind]. reflexivity.
  Qed.
End NP.
