(** Openings of merged tables, and the hash layer: completeness up to the final comparisons. *)
From Coq Require Import String List Arith Lia Bool Field Ring.
From Verif Require Import Base ListAux Field Vec MathModel PolyModel PolySpec PolyProofs PolyImp CommitModel CommitSpec CommitProofs SigmaModel BulletProofs LogProofs SumModel R1csModel ProdModel ProdSpec ProdProofs ProdBatch SparModel SparSpec.
Import ListNotations.

Section Open.
  Context {K : Fld} {G : Mod K} {E : Enc G}.
  Variable H : log E -> K.
  Local Open Scope fld_scope.
  Add Field Kso : (fth K).

  Lemma unless_seq {A} lb (v : K) k1 k2 (f : res A) (P : A -> Prop) :
    unless H lb v k1 (exists x, f = Ok x) -> (forall x, f = Ok x -> unless H lb v k2 (P x)) ->
    unless H lb v (k1 + k2) (exists x, f = Ok x /\ P x).
  Proof.
    intros (ls & L & F & N) U. destruct f as [x|e|] eqn:Ef.
    - destruct (U x eq_refl) as (ls2 & L2 & F2 & N2). exists (ls ++ ls2). split; [rewrite app_length; congruence|]. split.
      + intros l I. apply in_app_or in I. destruct I as [I|I]; [apply F, I|apply F2, I].
      + intro Q. exists x. split; [reflexivity|]. apply N2. intros l I. apply Q. apply in_or_app. right. exact I.
    - exists (ls ++ repeat [MChal lb] k2). split; [rewrite app_length, repeat_length; congruence|]. split.
      + intros l I. apply in_app_or in I. destruct I as [I|I]; [apply F, I|]. apply repeat_spec in I. exists []. exact I.
      + intro Q. destruct N as (x & X); [intros l I; apply Q; apply in_or_app; left; exact I|discriminate].
    - exists (ls ++ repeat [MChal lb] k2). split; [rewrite app_length, repeat_length; congruence|]. split.
      + intros l I. apply in_app_or in I. destruct I as [I|I]; [apply F, I|]. apply repeat_spec in I. exists []. exact I.
      + intro Q. destruct N as (x & X); [intros l I; apply Q; apply in_or_app; left; exact I|discriminate].
  Qed.

  Lemma bind_bots_ok (rs : list K) : forall d, dense_ok d -> dnum_vars d = length rs ->
    exists d', bind_bots d (rev rs) = Ok d' /\ dlen d' = 1%nat /\ dense_index d' 0 = Ok (mle (live d) rs).
  Proof.
    induction rs as [|r rs IH] using rev_ind; intros d O N.
    - exists d. split; [reflexivity|]. destruct O as [O1 O2]. rewrite N in O1. cbn in O1. split; [exact O1|].
      unfold dense_index. rewrite (idx_nth _ _ 0) by lia. rewrite mle_nil, live_nth by lia. reflexivity.
    - rewrite app_length, Nat.add_1_r in N. destruct (bind_bot_mle K d r rs O N) as (d1 & E1 & O1 & N1 & EM).
      destruct (IH d1 O1 N1) as (d' & E' & L' & V'). exists d'. rewrite rev_app_distr. cbn [rev app bind_bots]. rewrite E1. cbn [bind].
      rewrite <- EM. split; [exact E'|]. split; [exact L'|exact V'].
  Qed.
  Lemma joint_eval_ok (evals chal : list K) : length evals = (2 ^ length chal)%nat -> joint_eval evals chal = Ok (mle evals chal).
  Proof.
    intro L. unfold joint_eval. destruct (dense_new_ok K evals _ L) as (-> & O & LV). cbn [bind].
    destruct (bind_bots_ok chal _ O eq_refl) as (d' & -> & L1 & V). cbn [bind]. rewrite L1. cbn [Nat.eqb]. rewrite V, LV. reflexivity.
  Qed.
  Lemma n_to_one_ok l lc lj (evals r : list K) (tr : log E) k : length evals = (2 ^ k)%nat ->
    exists chal tr1, length chal = k /\ n_to_one H l lc lj evals r tr = Ok (chal ++ r, mle evals chal, tr1).
  Proof.
    intro L. unfold n_to_one. rewrite L, log_2_pow. cbn [bind].
    pose proof (challenges_length H lc k (app_scalars l evals tr)) as LC. destruct (challenges H lc k (app_scalars l evals tr)) as [chal t1]. cbn [fst] in LC.
    rewrite joint_eval_ok by congruence. cbn [bind]. exists chal, (app_scalar lj (mle evals chal) t1). split; [exact LC|reflexivity].
  Qed.
  Lemma resize_len (l : list K) : l <> [] -> length (resize_pow2 l) = (2 ^ Nat.log2_up (length l))%nat.
  Proof. intros _. unfold resize_pow2. rewrite app_length, repeat_length. pose proof (next_pow2_ge (length l)). unfold next_pow2 in *. lia. Qed.

  (** the commitment of a polynomial without blinds *)
  Definition comm_of (d : dense K) (g : dgens G) (C : list E) : Prop := exists bl tp, poly_commit H d g None = Ok (C, bl, tp).

  Lemma open_ok l lc lj (polys : list (list K)) (r : list K) (g : dgens G) stream C (tr : log E) :
    let k := (Nat.log2_up (length polys) + length r)%nat in let Z := resize_pow2 (concat polys) in
    polys <> [] -> (forall P, In P polys -> length P = (2 ^ length r)%nat) ->
    pcgens_new k stream = Ok g -> (k - k / 2 < 32)%nat -> comm_of (dt k Z) g C ->
    exists rj v tr1, n_to_one H l lc lj (resize_pow2 (map (fun P => mle P r) polys)) r tr = Ok (rj, v, tr1) /\
      forall tape, (forall pf CZ tr' tape', pe_prove H (dt k Z) None rj v None g tr1 tape = Ok (pf, CZ, tr', tape') -> pe_verify_plain H pf g tr1 rj v C = Ok tr') /\
        unless H "u" 0 (k - k / 2) (exists x, pe_prove H (dt k Z) None rj v None g tr1 tape = Ok x).
  Proof.
    intros k Z NE LP Hg L32 (bl & tp & EC).
    destruct (n_to_one_ok l lc lj (resize_pow2 (map (fun P => mle P r) polys)) r tr (Nat.log2_up (length polys))) as (chal & tr1 & LC & EN).
    { rewrite resize_len by (destruct polys; [congruence|discriminate]). rewrite map_length. reflexivity. }
    eexists _, _, _. split; [exact EN|]. intro tape.
    assert (EM : mle (resize_pow2 (map (fun P => mle P r) polys)) chal = mle Z (chal ++ r)) by (symmetry; apply (merge_mle K polys chal r NE LC LP)).
    rewrite EM. assert (Lj : length (chal ++ r) = k) by (rewrite app_length, LC; reflexivity).
    assert (LZ : length Z = (2 ^ length (chal ++ r))%nat).
    { rewrite Lj. unfold Z, resize_pow2. rewrite app_length, repeat_length. rewrite (concat_length_const K _ _ LP), next_pow2_mul by (destruct polys; [congruence|cbn; lia]).
      assert (0 < length polys)%nat by (destruct polys; [congruence|cbn; lia]). pose proof (next_pow2_ge (length polys)). unfold k. rewrite Nat.pow_add_r. unfold next_pow2 in *. nia. }
    destruct (dense_new_ok K Z _ LZ) as (ED & _ & _). rewrite Lj in ED. fold (dt k Z) in ED.
    destruct (LogProofs.pe_complete H Z (chal ++ r) (dt k Z) g stream None C bl tp None None tr1 tape LZ ltac:(rewrite Lj; exact L32) ED ltac:(rewrite Lj; exact Hg) EC ltac:(right; split; reflexivity)) as [P U].
    rewrite Lj in U. split; [|exact U]. intros pf CZ tr' tape' X. destruct (P _ _ _ _ X) as (_ & _ & V). apply V. reflexivity.
  Qed.

  Lemma idx_triples {A B} (f g h : A -> B) (d : A) (l : list A) : forall i, (i < length l)%nat ->
    let L := flat_map (fun t => [f t; g t; h t]) l in
    idx L (3 * i) = Ok (f (nth i l d)) /\ idx L (3 * i + 1) = Ok (g (nth i l d)) /\ idx L (3 * i + 2) = Ok (h (nth i l d)).
  Proof.
    induction l as [|t l IH]; intros i Hi; [cbn in Hi; lia|]. cbn [flat_map app]. destruct i as [|i].
    - repeat split; reflexivity.
    - cbn [length] in Hi. destruct (IH i ltac:(lia)) as (A0 & A1 & A2). unfold idx in *. cbn [nth].
      replace (3 * S i)%nat with (S (S (S (3 * i)))) by lia. cbn [Nat.add nth_error]. rewrite <- A0, <- A1, <- A2. repeat split; reflexivity.
  Qed.

  (** what the tables are *)
  Definition at_is (t : addrts) (m c : nat) (A T : list (list K)) (U : list K) : Prop :=
    at_addr t = map (dt m) A /\ at_read t = map (dt m) T /\ at_audit t = dt c U.
  Definition all_len (m : nat) (l : list (list K)) : Prop := forall P, In P l -> length P = (2 ^ m)%nat.
  Definition md_is (d : mdense) (m c : nat) (RA RT CA CT V : list (list K)) (RU CU : list K) : Prop :=
    at_is (md_row d) m c RA RT RU /\ at_is (md_col d) m c CA CT CU /\ md_val d = map (dt m) V /\
    (let ps := RA ++ RT ++ CA ++ CT ++ V in md_ops d = dt (Nat.log2_up (length ps) + m) (resize_pow2 (concat ps)) /\ all_len m ps /\ ps <> []) /\
    md_mem d = dt (S c) (RU ++ CU) /\ length RU = (2 ^ c)%nat /\ length CU = (2 ^ c)%nat.
  Definition df_is (f : derefs) (m : nat) (RD CD : list (list K)) : Prop :=
    df_row f = map (dt m) RD /\ df_col f = map (dt m) CD /\ length RD = length CD /\ RD <> [] /\ all_len m (RD ++ CD) /\
    df_comb f = dt (Nat.log2_up (length (RD ++ CD)) + m) (resize_pow2 (concat (RD ++ CD))).

  Lemma dt_eval m (Z r : list K) : length Z = (2 ^ m)%nat -> length r = m -> dense_evaluate (dt m Z) r = Ok (mle Z r).
  Proof.
    intros L <-. pose proof (evaluate_ok K Z r L) as Q. destruct (dense_new_ok K Z _ L) as (X & _ & _). rewrite X in Q. exact Q.
  Qed.
  Lemma dt_evals m (Zs : list (list K)) (r : list K) : all_len m Zs -> length r = m -> mapM (fun d => dense_evaluate d r) (map (dt m) Zs) = Ok (map (fun Z => mle Z r) Zs).
  Proof.
    intros L Lr. induction Zs as [|Z Zs IH]; [reflexivity|]. cbn [map mapM]. rewrite dt_eval by (first [exact Lr|apply L; left; reflexivity]). cbn [bind].
    rewrite IH by (intros P I; apply L; right; exact I). reflexivity.
  Qed.
  Lemma all_len_app m a b : all_len m (a ++ b) <-> all_len m a /\ all_len m b.
  Proof.
    split; [intro A; split; intros P I; apply A, in_or_app; auto|]. intros [A B] P I. apply in_app_or in I. destruct I; auto.
  Qed.
  Lemma hash_evals_ok t m c A T U (rm ro : list K) : at_is t m c A T U -> all_len m A -> all_len m T -> length U = (2 ^ c)%nat -> length rm = c -> length ro = m ->
    hash_evals rm ro t = Ok (map (fun Z => mle Z ro) A, map (fun Z => mle Z ro) T, mle U rm).
  Proof.
    intros (E1 & E2 & E3) LA LT LU L1 L2. unfold hash_evals. rewrite E1, E2, E3. rewrite (dt_evals m A ro LA L2), (dt_evals m T ro LT L2). cbn [bind]. rewrite (dt_eval c U rm LU L1). reflexivity.
  Qed.

  Lemma hl_ok (d : mdense) (f : derefs) m c RA RT CA CT V RU CU RD CD (g : sgens) s1 s2 s3 (comm : scomm) (cder : list E) (rm ro : list K) (tr tape : log E) :
    md_is d m c RA RT CA CT V RU CU -> df_is f m RD CD -> length V = length RD -> length rm = c -> length ro = m ->
    let ps := RA ++ RT ++ CA ++ CT ++ V in
    let k1 := (Nat.log2_up (length (RD ++ CD)) + m)%nat in let k2 := (Nat.log2_up (length ps) + m)%nat in let k3 := S c in
    pcgens_new k1 s1 = Ok (sg_derefs g) -> pcgens_new k2 s2 = Ok (sg_ops g) -> pcgens_new k3 s3 = Ok (sg_mem g) ->
    (half_up k1 < 32)%nat -> (half_up k2 < 32)%nat -> (half_up k3 < 32)%nat ->
    comm_of (df_comb f) (sg_derefs g) cder -> comm_of (md_ops d) (sg_ops g) (sc_ops comm) -> comm_of (md_mem d) (sg_mem g) (sc_mem comm) ->
    let ev := fun Z => mle Z ro in
    (forall pf tr' tape', hl_prove H rm ro d f g tr tape = Ok (pf, tr', tape') ->
      hp_row pf = (map ev RA, map ev RT, mle RU rm) /\ hp_col pf = (map ev CA, map ev CT, mle CU rm) /\
      forall ra rt ca ct crow ccol rx ry rh rmc, ra ++ rt ++ ca ++ ct = map ev (RA ++ RT ++ CA ++ CT) ->
        hl_check rm crow (map ev RD) ra rt (mle RU rm) rx rh rmc = Ok tt ->
        hl_check rm ccol (map ev CD) ca ct (mle CU rm) ry rh rmc = Ok tt ->
        hl_verify H (MkHP (ra, rt, mle RU rm) (ca, ct, mle CU rm) (hp_val pf) (hp_der pf) (hp_ops pf) (hp_mem pf) (hp_dpf pf)) rm ro crow ccol
          (flat_map (fun t => [ev (t1 t); ev (t2 t); ev (t3 t)]) (combine (combine RD CD) V)) comm g cder rx ry rh rmc tr = Ok tr') /\
    unless H "u" 0 (half_up k1 + half_up k2 + half_up k3) (exists x, hl_prove H rm ro d f g tr tape = Ok x).
  Proof.
    intros (AR & AC & EV & (EO & LO & NO) & EM & LRU & LCU) (ER & EC & Lrc & NR & LD & EF) LV Lrm Lro ps k1 k2 k3 G1 G2 G3 B1 B2 B3 C1 C2 C3 ev.
    unfold hl_prove. set (tr0 := proto _ tr). rewrite ER, EC. destruct (proj1 (all_len_app _ _ _) LD) as [LRD LCD].
    rewrite (dt_evals m RD ro LRD Lro), (dt_evals m CD ro LCD Lro). cbn [bind]. fold ev.
    unfold de_prove. set (tr1 := proto _ tr0). rewrite <- map_app.
    assert (NRC : RD ++ CD <> []) by (destruct RD; [congruence|discriminate]).
    rewrite resize_len by (intro X; apply map_eq_nil in X; exact (NRC X)). rewrite map_length, log_2_pow. cbn [bind]. rewrite EF. cbn [dnum_vars dt].
    replace (Nat.eqb (Nat.log2_up (length (RD ++ CD)) + m) (length ro + Nat.log2_up (length (RD ++ CD)))) with true by (symmetry; apply Nat.eqb_eq; lia).
    rewrite EF in C1. rewrite EO in C2. rewrite EM in C3.
    assert (O1 := open_ok "evals_ops_val" "challenge_combine_n_to_one" "joint_claim_eval" (RD ++ CD) ro (sg_derefs g) s1 cder tr1). cbn zeta in O1. rewrite Lro in O1.
    destruct (O1 NRC LD G1 B1 C1) as (rj1 & v1 & t1' & N1 & P1). clear O1. fold ev in N1. rewrite N1. cbn [bind]. destruct (P1 tape) as [V1 U1]. clear P1.
    destruct (proj1 (all_len_app _ _ _) LO) as [LRA L']. destruct (proj1 (all_len_app _ _ _) L') as [LRT L'']. destruct (proj1 (all_len_app _ _ _) L'') as [LCA L3]. destruct (proj1 (all_len_app _ _ _) L3) as [LCT LVV].
    rewrite (hash_evals_ok _ m c RA RT RU rm ro AR LRA LRT LRU Lrm Lro), (hash_evals_ok _ m c CA CT CU rm ro AC LCA LCT LCU Lrm Lro), EV, (dt_evals m V ro LVV Lro), EO, EM. fold ev.
    assert (EPS : map ev RA ++ map ev RT ++ map ev CA ++ map ev CT ++ map ev V = map ev ps) by (unfold ps; rewrite !map_app; reflexivity).
    assert (OP2 : forall t0, exists rj2 v2 t2', n_to_one H "claim_evals_ops" "challenge_combine_n_to_one" "joint_claim_eval_ops" (resize_pow2 (map ev ps)) ro t0 = Ok (rj2, v2, t2') /\
       forall tape, (forall pf CZ tr' tape', pe_prove H (dt k2 (resize_pow2 (concat ps))) None rj2 v2 None (sg_ops g) t2' tape = Ok (pf, CZ, tr', tape') -> pe_verify_plain H pf (sg_ops g) t2' rj2 v2 (sc_ops comm) = Ok tr') /\
        unless H "u" 0 (half_up k2) (exists x, pe_prove H (dt k2 (resize_pow2 (concat ps))) None rj2 v2 None (sg_ops g) t2' tape = Ok x)).
    { intro t0. assert (O2 := open_ok "claim_evals_ops" "challenge_combine_n_to_one" "joint_claim_eval_ops" ps ro (sg_ops g) s2 (sc_ops comm) t0). cbn zeta in O2. rewrite Lro in O2. exact (O2 NO LO G2 B2 C2). }
    assert (EZ3 : resize_pow2 (concat [RU; CU]) = RU ++ CU).
    { unfold resize_pow2. cbn [concat]. rewrite app_nil_r, app_length, LRU, LCU. replace (2 ^ c + 2 ^ c)%nat with (2 ^ S c)%nat by (rewrite pow2_S; reflexivity).
      rewrite next_pow2_pow, Nat.sub_diag. cbn [repeat]. rewrite app_nil_r. reflexivity. }
    assert (OP3 : forall t0, exists rj3 v3 t3', n_to_one H "claim_evals_mem" "challenge_combine_two_to_one" "joint_claim_eval_mem" [mle RU rm; mle CU rm] rm t0 = Ok (rj3, v3, t3') /\
       forall tape, (forall pf CZ tr' tape', pe_prove H (dt k3 (RU ++ CU)) None rj3 v3 None (sg_mem g) t3' tape = Ok (pf, CZ, tr', tape') -> pe_verify_plain H pf (sg_mem g) t3' rj3 v3 (sc_mem comm) = Ok tr') /\
        unless H "u" 0 (half_up k3) (exists x, pe_prove H (dt k3 (RU ++ CU)) None rj3 v3 None (sg_mem g) t3' tape = Ok x)).
    { intro t0. assert (O3 := open_ok "claim_evals_mem" "challenge_combine_two_to_one" "joint_claim_eval_mem" [RU; CU] rm (sg_mem g) s3 (sc_mem comm) t0). cbn zeta in O3. rewrite Lrm, EZ3 in O3.
      change (Nat.log2_up (length [RU; CU]) + c)%nat with k3 in O3. apply O3; try assumption; [discriminate|]. intros P [<-|[<-|[]]]; assumption. }
    split.
    - intros pf tr' tape' X.
      destruct (pe_prove H (dt k1 (resize_pow2 (concat (RD ++ CD)))) None rj1 v1 None (sg_derefs g) t1' tape) as [[[[pd CZ1] ta] tpa]| |] eqn:E1; unfold k1 in E1; unfold dt in E1; unfold dt in X; rewrite E1 in X; [|discriminate X..].
      cbn [bind] in X. rewrite EPS in X. destruct (OP2 ta) as (rj2 & v2 & t2' & N2 & P2). destruct (P2 tpa) as [V2 _]. rewrite N2 in X. cbn [bind] in X.
      destruct (pe_prove H (dt k2 (resize_pow2 (concat ps))) None rj2 v2 None (sg_ops g) t2' tpa) as [[[[po CZ2] tb] tpb]| |] eqn:E2; unfold k2, dt, ps in E2; unfold ps in X; rewrite E2 in X; [|discriminate X..].
      cbn [bind] in X. destruct (OP3 tb) as (rj3 & v3 & t3' & N3 & P3). destruct (P3 tpb) as [V3 _]. rewrite N3 in X. cbn [bind] in X.
      destruct (pe_prove H (dt k3 (RU ++ CU)) None rj3 v3 None (sg_mem g) t3' tpb) as [[[[pm CZ3] tc] tpc]| |] eqn:E3; unfold k3, dt in E3; rewrite E3 in X; [|discriminate X..].
      cbn [bind] in X. injection X as <- <- <-. split; [reflexivity|]. split; [reflexivity|].
      intros ra rt ca ct crow ccol rx ry rh rmc ES HR HC. unfold hl_verify. fold tr0. cbn [hp_der hp_dpf hp_val hp_row hp_col hp_ops hp_mem].
      rewrite !map_length, Lrc, Nat.eqb_refl. unfold de_verify. fold tr1. rewrite <- map_app, N1. cbn [bind].
      rewrite (V1 _ _ _ _ E1). cbn [bind].
      assert (LC : length (combine (combine RD CD) V) = length RD) by (rewrite !combine_length; lia).
      assert (L3R : length (flat_map (fun t : triple K => [ev (t1 t); ev (t2 t); ev (t3 t)]) (combine (combine RD CD) V)) = (3 * length RD)%nat).
      { rewrite <- LC. clear. induction (combine (combine RD CD) V) as [|t l IH]; [reflexivity|]. cbn [flat_map app length]. rewrite IH. lia. }
      rewrite L3R, <- Lrc, Nat.eqb_refl. rewrite (mapM_ok _ (fun _ => tt)).
      2:{ intros i Hi. apply in_seq in Hi. replace (3 * length RD / 3)%nat with (length RD) in Hi by (rewrite Nat.mul_comm, Nat.div_mul; lia).
          assert (Hn : nth i (combine (combine RD CD) V) ([], [], []) = (nth i RD [], nth i CD [], nth i V [])).
          { rewrite combine_nth by (rewrite combine_length; lia). rewrite combine_nth by lia. reflexivity. }
          assert (Hil : (i < length (combine (combine RD CD) V))%nat) by (rewrite LC; lia).
          destruct (idx_triples (fun t : triple K => ev (t1 t)) (fun t => ev (t2 t)) (fun t => ev (t3 t)) ([], [], []) (combine (combine RD CD) V) i Hil) as (I1 & I2 & I3).
          cbn zeta in I1, I2, I3. unfold triple in *. rewrite I1, I2, I3, Hn. unfold t1, t2, t3. cbn [fst snd bind].
          rewrite !(idx_nth _ i (ev [])) by (rewrite map_length; lia). cbn [bind]. rewrite !map_nth, !(Field.feqb_refl K). reflexivity. }
      cbn [bind]. assert (EPS2 : ra ++ rt ++ ca ++ ct ++ map ev V = map ev ps).
      { transitivity ((ra ++ rt ++ ca ++ ct) ++ map ev V); [rewrite <- !app_assoc; reflexivity|]. rewrite ES, <- map_app. unfold ps. rewrite <- !app_assoc. reflexivity. }
      rewrite EPS2. rewrite N2. cbn [bind]. rewrite (V2 _ _ _ _ eq_refl). cbn [bind]. rewrite N3. cbn [bind]. rewrite (V3 _ _ _ _ eq_refl). cbn [bind].
      rewrite HR. cbn [bind]. rewrite HC. reflexivity.
    - unfold dt in *. cbn [bind]. rewrite EPS.
      pose proof (unless_seq "u" 0 (half_up k1) (half_up k2 + half_up k3) _ (fun x => exists y, (let '(pd, tr2, tape0) := (let '(pf, _, tr2, tape0) := x in (pf, tr2, tape0)) in
         do j <- n_to_one H "claim_evals_ops" "challenge_combine_n_to_one" "joint_claim_eval_ops" (resize_pow2 (map ev ps)) ro tr2;
         let '(rj, v, tr3) := j in
         do p <- pe_prove H (MkDense k2 (2 ^ k2) (resize_pow2 (concat ps))) None rj v None (sg_ops g) tr3 tape0;
         let '(po, _, tr4, tape2) := p in
         do j <- n_to_one H "claim_evals_mem" "challenge_combine_two_to_one" "joint_claim_eval_mem" [mle RU rm; mle CU rm] rm tr4;
         let '(rj, v, tr5) := j in
         do p <- pe_prove H (MkDense k3 (2 ^ k3) (RU ++ CU)) None rj v None (sg_mem g) tr5 tape2;
         let '(pm, _, tr6, tape3) := p in
         Ok (MkHP (map ev RA, map ev RT, mle RU rm) (map ev CA, map ev CT, mle CU rm) (map ev V) (map ev RD, map ev CD) po pm pd, tr6, tape3)) = Ok y) U1) as US.
      rewrite <- Nat.add_assoc. refine (unless_mono H _ _ _ _ _ _ (US _)).
      + intros ([[[pd CZ1] ta] tpa] & E1 & y & EY). exists y. unfold k1 in E1. rewrite E1. cbn [bind]. exact EY.
      + intros [[[pd CZ1] ta] tpa] E1. destruct (OP2 ta) as (rj2 & v2 & t2' & N2 & P2). destruct (P2 tpa) as [_ U2]. rewrite N2. cbn [bind].
        pose proof (unless_seq "u" 0 (half_up k2) (half_up k3) _ (fun p => exists y, (let '(po, _, tr4, tape2) := p in
         do j <- n_to_one H "claim_evals_mem" "challenge_combine_two_to_one" "joint_claim_eval_mem" [mle RU rm; mle CU rm] rm tr4;
         let '(rj, v, tr5) := j in
         do p <- pe_prove H (MkDense k3 (2 ^ k3) (RU ++ CU)) None rj v None (sg_mem g) tr5 tape2;
         let '(pm, _, tr6, tape3) := p in
         Ok (MkHP (map ev RA, map ev RT, mle RU rm) (map ev CA, map ev CT, mle CU rm) (map ev V) (map ev RD, map ev CD) po pm pd, tr6, tape3)) = Ok y) U2) as US2.
        refine (unless_mono H _ _ _ _ _ _ (US2 _)).
        * intros (p & E2 & y & EY). exists y. rewrite E2. cbn [bind]. exact EY.
        * intros [[[po CZ2] tb] tpb] E2. destruct (OP3 tb) as (rj3 & v3 & t3' & N3 & P3). destruct (P3 tpb) as [_ U3]. rewrite N3. cbn [bind].
          refine (unless_mono H _ _ _ _ _ _ U3). intros ([[[pm CZ3] tc] tpc] & ->). eexists. reflexivity.
  Qed.
End Open.
