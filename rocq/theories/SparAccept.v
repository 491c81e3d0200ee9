(** What an accepted evaluation proof shows. *)
From Coq Require Import String List Arith Lia Bool Field Ring.
From Verif Require Import Base ListAux Field Vec MathModel PolyModel PolySpec PolyProofs PolyImp CommitModel CommitSpec CommitProofs SigmaModel BulletProofs LogProofs SumModel SumSpec R1csModel R1csSpec NizkApi ProdModel ProdSpec ProdProofs ProdBatch ProdSound ProdSoundB SparModel SparSpec SparMem SparOpen SparNet SparTab SparProofs SparSound SparApi SparClaims.
Import ListNotations.

Section Accept.
  Context {K : Fld} {G : Mod K} {E : Enc G}.
  Variable H : log E -> K.
  Local Open Scope fld_scope.
  Add Field Kac : (fth K).

  Lemma run_len dotp np dv last pfs : forall i claims rand cd (tr : log E) c d r t,
    pb_verify_loop H dotp np dv last pfs i claims rand cd tr = Ok (c, d, r, t) -> length r = (length rand + length pfs)%nat.
  Proof.
    induction pfs as [|pf pfs IH]; intros i claims rand cd tr c d r t X; cbn [pb_verify_loop length] in X |- *.
    - injection X as _ _ <- _. lia.
    - set (cl := if Nat.eqb i last then _ else _) in X. destruct (challenges H _ _ tr) as [coeffs tr0].
      destruct (sc_verify H _ _ _ _ _) as [[[e rp] tr1]| |]; cbn [bind] in X; try discriminate X.
      destruct (Nat.eqb _ np); [|discriminate X]. destruct (Nat.eqb _ np); [|discriminate X]. destruct (Nat.eqb_spec (length rand) (length rp)) as [L|]; [|discriminate X].
      match type of X with bind ?f _ = _ => destruct f; cbn [bind] in X; try discriminate X end. destruct (feqb _ _); [|discriminate X]. unfold challenge in X.
      match type of X with bind ?f _ = _ => destruct f; cbn [bind] in X; try discriminate X end.
      apply IH in X. cbn [length] in X. lia.
  Qed.
  Lemma pcb_len n pb pv dv (tr : log E) c d r t : pcb_verify H pb pv dv (2 ^ n) tr = Ok (c, d, r, t) -> length r = n.
  Proof.
    intro X. unfold pcb_verify in X. rewrite log_2_pow in X. cbn [bind] in X. destruct (Nat.eqb_spec (length (bp_layers pb)) n) as [L|]; [|discriminate X].
    apply run_len in X. cbn [length] in X. lia.
  Qed.

  (** ** openings *)
  Lemma opened_at l lc lj (evals vs r : list K) s (tr : log E) rj v tr1 pf g C tr2 :
    vs = evals ++ repeat 0 (2 ^ s - length evals) -> (length evals <= 2 ^ s)%nat ->
    n_to_one H l lc lj vs r tr = Ok (rj, v, tr1) -> pe_verify_plain H pf g tr1 rj v C = Ok tr2 -> batch_opened H l lc lj pf g C evals r tr tr2.
  Proof.
    intros Ev L X P. assert (LV : length vs = (2 ^ s)%nat) by (rewrite Ev, app_length, repeat_length; lia).
    unfold n_to_one in X. rewrite LV, log_2_pow in X. cbn [bind] in X. rewrite challenges_eq in X.
    rewrite joint_eval_ok in X by (rewrite map_length, seq_length; exact LV). cbn [bind] in X. injection X; clear X; intros <- <- <-.
    exists s. cbn zeta. rewrite <- Ev. split; [exact L|exact P].
  Qed.
  Lemma opened_resize l lc lj (evals r : list K) (tr : log E) rj v tr1 pf g C tr2 :
    n_to_one H l lc lj (resize_pow2 evals) r tr = Ok (rj, v, tr1) -> pe_verify_plain H pf g tr1 rj v C = Ok tr2 -> batch_opened H l lc lj pf g C evals r tr tr2.
  Proof. apply (opened_at l lc lj evals (resize_pow2 evals) r (Nat.log2_up (length evals))); [reflexivity|apply next_pow2_ge]. Qed.

  (** ** the comparisons with the fingerprints *)
  Lemma check_conv (r rm ro : list K) (A V T : list (list K)) (U : list K) rh rmc ci cr cw ca u : length r = length rm -> length U = (2 ^ length rm)%nat ->
    all_len (length ro) A -> all_len (length ro) V -> all_len (length ro) T -> length V = length A -> length T = length A -> length cr = length A -> length cw = length A ->
    let ev := fun Z => mle Z ro in let me := fun Z => mle Z rm in let ids := nats (seq 0 (2 ^ length rm)) in let mem := eq_evals r in
    hl_check rm (ci, cr, cw, ca) (map ev V) (map ev A) (map ev T) (me U) r rh rmc = Ok u ->
    ci = me (htab rh rmc ids mem (repeat 0 (2 ^ length rm))) /\ cr = map ev (ops_tab rh rmc 0 A V T) /\ cw = map ev (ops_tab rh rmc 1 A V T) /\ ca = me (htab rh rmc ids mem U).
  Proof.
    intros Lr LU LA LV LT L1 L2 Lc Lw ev me ids mem X. unfold hl_check in X. rewrite identity_ok, (eq_ok r rm Lr) in X. cbn [bind] in X.
    assert (Li : length ids = (2 ^ length rm)%nat) by (unfold ids, nats; rewrite map_length, seq_length; reflexivity).
    assert (Lm : length mem = (2 ^ length rm)%nat) by (unfold mem; rewrite eq_evals_length, Lr; reflexivity).
    unfold me. rewrite !mle_htab by (rewrite ?repeat_length; congruence). fold ids mem in X. rewrite mle_zero.
    destruct (feqb_spec K (hash3 rh rmc (mle ids rm) (mle mem rm) 0) ci) as [Ei|]; [|discriminate X].
    assert (CH : forall s cs vs, length cs = length A -> mapM (fun i => do a <- idx (map ev A) i; do v <- idx (map ev V) i; do t <- idx (map ev T) i; do c <- idx cs i;
                     assert (feqb (hash3 rh rmc a v (t + s)) c); Ok tt) (seq 0 (length (map ev A))) = Ok vs -> cs = map ev (ops_tab rh rmc s A V T)).
    { intros s cs vs Lcs Y. assert (LO : length (ops_tab rh rmc s A V T) = length A) by (apply map3_length; assumption).
      apply (list_ext _ _ (ev [])); [rewrite map_length; congruence|]. intros i Hi. destruct (mapM_inv _ _ _ Y) as [_ Q]. rewrite map_length in Q.
      assert (Hi' : (i < length A)%nat) by lia. destruct (Q i i (nth_error_seq _ _ Hi')) as (b & _ & F). clear Q.
      rewrite !(idx_nth _ i (ev [])) in F by (rewrite ?map_length; lia). cbn [bind] in F. rewrite !map_nth in F.
      rewrite map_nth. unfold ops_tab. rewrite (map3_nth _ [] [] []) by lia. unfold ev in F |- *.
      assert (Q1 : length (nth i A []) = (2 ^ length ro)%nat) by (apply LA, nth_In; lia). assert (Q2 : length (nth i V []) = (2 ^ length ro)%nat) by (apply LV, nth_In; lia). assert (Q3 : length (nth i T []) = (2 ^ length ro)%nat) by (apply LT, nth_In; lia).
      rewrite mle_htab by (rewrite ?map_length; congruence). rewrite mle_shift by exact Q3.
      match type of F with (if feqb ?a ?b then _ else _) = _ => destruct (feqb_spec K a b) as [Q|]; [exact (eq_sym Q)|discriminate F] end. }
    destruct (mapM _ _) as [v0| |] eqn:Y0 in X; cbn [bind] in X; try discriminate X. destruct (mapM _ _) as [v1| |] eqn:Y1 in X; cbn [bind] in X; try discriminate X.
    match type of X with (if feqb ?a ?b then _ else _) = _ => destruct (feqb_spec K a b) as [Ea|]; [|discriminate X] end.
    split; [exact (eq_sym Ei)|]. split; [exact (CH 0 cr v0 Lc Y0)|]. split; [exact (CH 1 cw v1 Lw Y1)|exact (eq_sym Ea)].
  Qed.

  (** ** the claimed halves of the evaluations *)
  Lemma dotp_check_inv n : forall dl dr evals (tr : log E) cs tr', length dl = n -> length evals = n -> dotp_check n dl dr evals tr = Ok (cs, tr') ->
    cs = halves dl dr /\ tr' = halves_log dl dr ++ tr /\ evals = map (fun '(a, b) => a + b) (combine dl dr) /\ length cs = (n * 2)%nat.
  Proof.
    induction n as [|n IH]; intros dl dr evals tr cs tr' L1 L2 X; cbn [dotp_check] in X.
    - injection X as <- <-. destruct dl; [|discriminate L1]. destruct evals; [|discriminate L2]. repeat split.
    - destruct dl as [|a dl]; [discriminate L1|]. destruct evals as [|e evals]; [discriminate L2|]. destruct dr as [|b dr]; [discriminate X|].
      unfold idx in X. cbn [nth_error of_opt bind tl] in X. destruct (feqb_spec K (a + b) e) as [Q|]; [|discriminate X].
      match type of X with bind ?f _ = _ => destruct f as [[cs1 t1]| |] eqn:Y; cbn [bind] in X; try discriminate X end. injection X; clear X; intros <- <-.
      destruct (IH dl dr evals _ _ _ ltac:(cbn in L1; lia) ltac:(cbn in L2; lia) Y) as (-> & -> & -> & L). unfold halves, halves_log in *. cbn [combine flat_map map app rev length] in *.
      split; [reflexivity|]. split; [|split; [rewrite Q; reflexivity|rewrite L; lia]].
      unfold app_scalar. rewrite <- !app_assoc. reflexivity.
  Qed.
  (** ** the tables *)
  Lemma concat_inj {A} (a : list (list A)) : forall b, map (@length A) a = map (@length A) b -> concat a = concat b -> a = b.
  Proof.
    induction a as [|x a IH]; intros [|y b] L X; try discriminate L; [reflexivity|]. cbn [map concat] in L, X. injection L as L0 L1.
    destruct (app_inj_len x _ y _ L0 X) as [-> X']. rewrite (IH b L1 X'). reflexivity.
  Qed.
  Lemma concat_blocks (f : nat -> nat) N k : forall s, concat (map (fun i => map (fun j => f (i * N + j)%nat) (seq 0 N)) (seq s k)) = map f (seq (s * N) (k * N)).
  Proof.
    induction k as [|k IH]; intro s; [reflexivity|]. cbn [seq map concat]. rewrite IH. cbn [Nat.mul]. rewrite seq_app, map_app. f_equal; [|f_equal; f_equal; lia].
    rewrite <- (map_map (fun j => (s * N + j)%nat) f). f_equal. apply (list_ext _ _ 0%nat); [rewrite map_length, !seq_length; reflexivity|].
    intros i Hi. rewrite map_length, seq_length in Hi. rewrite (nth_indep _ 0%nat ((fun j => (s * N + j)%nat) 0%nat)) by (rewrite map_length, seq_length; exact Hi). rewrite map_nth, !seq_nth by exact Hi. lia.
  Qed.
  Lemma const_len {A} (N : nat) (l : list (list A)) : (forall a, In a l -> length a = N) -> map (@length A) l = repeat N (length l).
  Proof. induction l as [|x l IH]; intro P; [reflexivity|]. cbn [map length repeat]. rewrite (P x (or_introl eq_refl)), IH; [reflexivity|intros; apply P; right; assumption]. Qed.
  Lemma concat_len {A} (N : nat) (l : list (list A)) : (forall a, In a l -> length a = N) -> length (concat l) = (length l * N)%nat.
  Proof. induction l as [|x l IH]; intro P; [reflexivity|]. cbn [concat length]. rewrite app_length, (P x (or_introl eq_refl)), IH; [lia|intros; apply P; right; assumption]. Qed.
  Lemma stamps_len m addrs a : In a (stamps m addrs) -> length a = (2 ^ m)%nat.
  Proof. unfold stamps. intro I. apply in_map_iff in I. destruct I as (i & <- & _). rewrite map_length, seq_length. reflexivity. Qed.
  Lemma stamps_concat m addrs : (forall a, In a addrs -> length a = (2 ^ m)%nat) -> concat (stamps m addrs) = map (earlier (concat addrs)) (seq 0 (length (concat addrs))).
  Proof. intro L. unfold stamps. rewrite concat_blocks, (concat_len _ _ L). reflexivity. Qed.
  Lemma counted_is m c addrs rts audit : (forall a, In a addrs -> length a = (2 ^ m)%nat) -> counted addrs rts audit (2 ^ c) -> rts = stamps m addrs /\ audit = audits c addrs.
  Proof.
    intros L (C1 & C2 & C3). split; [|exact C3]. apply concat_inj; [|rewrite stamps_concat by exact L; exact C2].
    rewrite C1, (const_len _ _ L), (const_len _ _ (stamps_len m addrs)). unfold stamps. rewrite map_length, seq_length. reflexivity.
  Qed.
  Lemma rows_len m (Ps : list (sparse K)) : (forall P, In P Ps -> (length (sM P) <= 2 ^ m)%nat) -> forall a, In a (stored_rows m Ps) -> length a = (2 ^ m)%nat.
  Proof. intros L a I. apply in_map_iff in I. destruct I as (P & <- & I). apply (padto_len m 0%nat). rewrite map_length. apply L, I. Qed.
  Lemma cols_len m (Ps : list (sparse K)) : (forall P, In P Ps -> (length (sM P) <= 2 ^ m)%nat) -> forall a, In a (stored_cols m Ps) -> length a = (2 ^ m)%nat.
  Proof. intros L a I. apply in_map_iff in I. destruct I as (P & <- & I). apply (padto_len m 0%nat). rewrite map_length. apply L, I. Qed.
  Lemma vals_len m (Ps : list (sparse K)) : (forall P, In P Ps -> (length (sM P) <= 2 ^ m)%nat) -> forall a, In a (stored_vals m Ps) -> length a = (2 ^ m)%nat.
  Proof. intros L a I. apply in_map_iff in I. destruct I as (P & <- & I). apply (padto_len m 0). rewrite map_length. apply L, I. Qed.

  Lemma hashed_is g t s (A V T : list K) : hashed g t s A V T = htab g t A V (map (fun x => x + s) T).
  Proof.
    unfold hashed, htab. assert (Q : forall (P : list (K * K)) (T : list K), map (fun x => fingerprint g t (fst (fst x), snd (fst x), snd x + s)) (combine P T) =
      map (fun x => hash3 g t (fst (fst x)) (snd (fst x)) (snd x)) (combine P (map (fun x => x + s) T))); [|apply Q].
    induction P as [|p P IH]; intros [|y T']; try reflexivity. cbn [combine map fst snd]. rewrite IH. reflexivity.
  Qed.
  Lemma hashed_ops_is g t s m addrs (D : list (list K)) : length D = length addrs -> hashed_ops g t s m addrs D = ops_tab g t s (map nats addrs) D (map nats (stamps m addrs)).
  Proof.
    intro L. assert (LS : length (stamps m addrs) = length addrs) by (unfold stamps; rewrite map_length, seq_length; reflexivity).
    apply (list_ext _ _ []).
    - unfold hashed_ops, ops_tab. rewrite map_length, seq_length, map3_length; rewrite ?map_length; congruence.
    - intros i Hi. unfold hashed_ops in *. rewrite map_length, seq_length in Hi. rewrite (nth_map0 _ _ _ 0%nat _) by (rewrite seq_length; exact Hi). rewrite seq_nth by exact Hi.
      unfold ops_tab. rewrite (map3_nth _ [] [] []) by (rewrite ?map_length; congruence). cbn [Nat.add]. rewrite hashed_is. assert (MN : forall l, nth i (map (@nats K) l) [] = nats (nth i l [])) by (intro l; exact (map_nth nats l [] i)). rewrite !MN. reflexivity.
  Qed.
  Lemma F2_len {A B} N (a : list (list A)) : forall b : list (list B), length b = length a -> (forall x, In x a -> length x = N) -> (forall x, In x b -> length x = N) -> Forall2 (fun a b => length b = length a) a b.
  Proof.
    induction a as [|x a IH]; intros [|y b] L PA PB; try discriminate L; constructor.
    - rewrite (PA x (or_introl eq_refl)), (PB y (or_introl eq_refl)). reflexivity.
    - apply IH; [cbn in L; lia|intros; apply PA; right; assumption|intros; apply PB; right; assumption].
  Qed.
  Lemma nats_in N (l : list (list nat)) : (forall a, In a l -> length a = N) -> forall a, In a (map (@nats K) l) -> length a = N.
  Proof. intros P a I. apply in_map_iff in I. destruct I as (x & <- & I). unfold nats. rewrite map_length. apply P, I. Qed.
  Lemma claimed_prod g t s m addrs (D : list (list K)) : (forall a, In a addrs -> length a = (2 ^ m)%nat) -> (forall a, In a D -> length a = (2 ^ m)%nat) -> length D = length addrs ->
    fprod (map fprod (hashed_ops g t s m addrs D)) = fprod (map (fun '(a, v, x) => fingerprint g t (a, v, x + s)) (claimed (concat addrs) (concat D))).
  Proof.
    intros LA LD L. rewrite hashed_ops_is by exact L. rewrite fprod_concat, concat_ops.
    - f_equal. assert (LC : length (concat D) = length (concat addrs)) by (rewrite (concat_len _ _ LA), (concat_len _ _ LD), L; reflexivity).
      unfold nats. rewrite <- !concat_map, stamps_concat by exact LA. set (accs := concat addrs) in *. set (vs := concat D) in *.
      apply (list_ext _ _ 0).
      + rewrite htab_length by (rewrite ?map_length, ?seq_length; congruence). unfold claimed. rewrite !map_length, seq_length. reflexivity.
      + intros i Hi. rewrite htab_length in Hi by (rewrite ?map_length, ?seq_length; congruence). rewrite map_length in Hi.
        rewrite htab_nth by (rewrite ?map_length, ?seq_length; congruence). unfold claimed. rewrite !map_map.
        rewrite !(nth_map0 _ _ _ 0%nat _) by (rewrite ?seq_length; exact Hi). rewrite !seq_nth by exact Hi. reflexivity.
    - apply (F2_len (2 ^ m)%nat); [rewrite map_length; exact L|apply nats_in, LA|exact LD].
    - apply (F2_len (2 ^ m)%nat); [unfold stamps; rewrite !map_length, seq_length; reflexivity|apply nats_in, LA|apply nats_in; intros a I; apply (stamps_len m addrs a I)].
  Qed.
  Lemma claimed_shift g t (l : list (K * K * K)) :
    map (fun '(a, v, x) => fingerprint g t (a, v, x + 0)) l = map (fingerprint g t) l /\
    map (fun '(a, v, x) => fingerprint g t (a, v, x + 1)) l = map (fingerprint g t) (map (fun '(a, v, s) => (a, v, s + 1)) l).
  Proof.
    split; [|rewrite map_map]; apply map_ext; intros [[a v] x]; [|reflexivity]. unfold fingerprint. ring.
  Qed.
  Lemma mem_tabs g t c (mem : list K) (addrs : list (list nat)) : length mem = (2 ^ c)%nat ->
    htab g t (nats (seq 0 (2 ^ c))) mem (repeat 0 (2 ^ c)) = hashed_start g t mem /\ htab g t (nats (seq 0 (2 ^ c))) mem (nats (audits c addrs)) = hashed_end g t mem addrs.
  Proof.
    intro L. rewrite <- L. split.
    - replace (repeat 0 (length mem)) with (@nats K (map (fun _ => 0%nat) (seq 0 (length mem)))); [apply (htab_cells g t mem (fun _ => 0%nat))|].
      unfold nats. rewrite map_map. apply (list_ext _ _ 0); [rewrite map_length, seq_length, repeat_length; reflexivity|]. intros i Hi. rewrite map_length, seq_length in Hi.
      rewrite (nth_map0 _ _ _ 0%nat _) by (rewrite seq_length; exact Hi). rewrite nth_repeat. reflexivity.
    - unfold audits. rewrite <- L. apply (htab_cells g t mem (total (concat addrs))).
  Qed.
  Lemma no_dotp dotp np last pfs : forall i claims rand (tr : log E) c d r t, pb_verify_loop H dotp np [] last pfs i claims rand [] tr = Ok (c, d, r, t) -> d = [].
  Proof.
    induction pfs as [|pf pfs IH]; intros i claims rand tr c d r t X; cbn [pb_verify_loop] in X.
    - injection X as _ <- _ _. reflexivity.
    - set (cl := if Nat.eqb i last then _ else _) in X. destruct (challenges H _ _ tr) as [coeffs tr0].
      destruct (sc_verify H _ _ _ _ _) as [[[e rp] tr1]| |]; cbn [bind] in X; try discriminate X.
      destruct (Nat.eqb _ np); [|discriminate X]. destruct (Nat.eqb _ np); [|discriminate X]. destruct (Nat.eqb_spec (length rand) (length rp)) as [L|]; [|discriminate X].
      match type of X with bind ?f _ = _ => destruct f; cbn [bind] in X; try discriminate X end. destruct (feqb _ _); [|discriminate X]. unfold challenge in X.
      match type of X with bind ?f _ = _ => assert (Q : f = Ok []) by (destruct (Nat.eqb i last); [destruct dotp as [[? ?] ?]; reflexivity|reflexivity]); rewrite Q in X; cbn [bind app] in X end.
      apply IH in X. exact X.
  Qed.
  Lemma memory_side g t m c (mem : list K) (addrs : list (list nat)) (D : list (list K)) (i a : K) (r w : list K) : length mem = (2 ^ c)%nat ->
    (forall a, In a addrs -> length a = (2 ^ m)%nat) -> (forall a, In a D -> length a = (2 ^ m)%nat) -> length D = length addrs ->
    i = fprod (hashed_start g t mem) -> a = fprod (hashed_end g t mem addrs) -> r = map fprod (hashed_ops g t 0 m addrs D) -> w = map fprod (hashed_ops g t 1 m addrs D) ->
    i * fprod w = fprod r * a -> D = map (deref1 mem) addrs \/ hides g t mem (concat addrs) (concat D).
  Proof.
    intros Lm LA LD L -> -> -> -> BAL. destruct (list_eq_dec feq_dec (concat D) (map (fun x => nth x mem 0) (concat addrs))) as [Q|N].
    - left. apply concat_inj.
      + rewrite (const_len _ _ LD), L. symmetry. rewrite <- (map_length (deref1 mem) addrs). apply const_len. intros x I. apply in_map_iff in I. destruct I as (y & <- & I). unfold deref1. rewrite map_length. apply LA, I.
      + rewrite Q. unfold deref1. rewrite concat_map. reflexivity.
    - right. split; [exact N|]. rewrite !(claimed_prod g t _ m) in BAL by assumption. destruct (claimed_shift g t (claimed (concat addrs) (concat D))) as [E0 E1]. rewrite E0, E1 in BAL. exact BAL.
  Qed.

  Lemma api_accepted (A B C : sparse K) (rx ry : list K) nz (stream : nat -> G) (g : sgens) (comm : scomm) (d : mdense) (tr : log E) (evals : list K) (pf : @sproof K G E) (tr' : log E) (RD CD : list (list K)) :
    let Ps := [A; B; C] in let m := Nat.log2_up nz in let c := Nat.max (length rx) (length ry) in
    mats_ok Ps rx ry nz -> sgens_new (length rx) (length ry) nz 3 stream = Ok g -> multi_commit H Ps g = Ok (comm, d) -> length evals = 3%nat ->
    length RD = 3%nat -> length CD = 3%nat -> (forall T, In T (RD ++ CD) -> length T = (2 ^ m)%nat) ->
    spar_verify H pf comm rx ry evals g tr = Ok tr' ->
    let h := np_hash (sp_net pf) in let l := np_prod (sp_net pf) in
    let memx := eq_evals (repeat 0 (c - length rx) ++ rx) in let memy := eq_evals (repeat 0 (c - length ry) ++ ry) in
    let rows := stored_rows m Ps in let cols := stored_cols m Ps in
    let w0 := app_derefs "comm_poly_row_col_ops_val" (sp_derefs pf) (proto "Sparse polynomial evaluation proof" tr) in
    let cr := MChal "challenge_r_hash" in let gm := H (cr :: w0) in let tau := H (cr :: cr :: w0) in
    let '(ri, rr, rw, ra) := lyp_row l in let '(ci, cr, cw, ca) := lyp_col l in let '(dl, dr) := lyp_val l in
    let w1 := halves_log dl dr ++ app_evals "col" (lyp_col l) (app_evals "row" (lyp_row l)
                (proto "Sparse polynomial product layer proof" (proto "Sparse polynomial evaluation proof" (MChal "challenge_r_hash" :: MChal "challenge_r_hash" :: w0)))) in
    let Zo := hashed_ops gm tau 0 m rows RD ++ hashed_ops gm tau 1 m rows RD ++ hashed_ops gm tau 0 m cols CD ++ hashed_ops gm tau 1 m cols CD in
    let Zm := [hashed_start gm tau memx; hashed_end gm tau memx rows; hashed_start gm tau memy; hashed_end gm tau memy cols] in
    let Ds := combine (combine RD CD) (stored_vals m Ps) in
    exists co cd ro w2 cm cdm rm w3 w4 w5,
      pcb_verify H (lyp_ops l) (rr ++ rw ++ cr ++ cw) (halves dl dr) (2 ^ m) w1 = Ok (co, cd, ro, w2) /\
      pcb_verify H (lyp_mem l) [ri; ra; ci; ca] [] (2 ^ c) w2 = Ok (cm, cdm, rm, w3) /\
      batch_opened H "evals_ops_val" "challenge_combine_n_to_one" "joint_claim_eval" (hp_dpf h) (sg_derefs g) (sp_derefs pf) (fst (hp_der h) ++ snd (hp_der h)) ro
        (proto "Derefs evaluation proof" (proto "Sparse polynomial hash layer proof" w3)) w4 /\
      batch_opened H "claim_evals_ops" "challenge_combine_n_to_one" "joint_claim_eval_ops" (hp_ops h) (sg_ops g) (sc_ops comm)
        (fst (fst (hp_row h)) ++ snd (fst (hp_row h)) ++ fst (fst (hp_col h)) ++ snd (fst (hp_col h)) ++ hp_val h) ro w4 w5 /\
      batch_opened H "claim_evals_mem" "challenge_combine_two_to_one" "joint_claim_eval_mem" (hp_mem h) (sg_mem g) (sc_mem comm) [snd (hp_row h); snd (hp_col h)] rm w5 tr' /\
      (opened_right m c Ps RD CD ro rm h ->
         evals = map (fun P => mat_at P rx ry) Ps \/
         hides gm tau memx (concat rows) (concat RD) \/ hides gm tau memy (concat cols) (concat CD) \/
         batch_fooled H m Zo Ds (lyp_ops l) (rr ++ rw ++ cr ++ cw) (halves dl dr) w1 \/
         batch_fooled H c Zm [] (lyp_mem l) [ri; ra; ci; ca] [] w2).
  Proof.
    intros Ps m c MO Hg Hc L3 LRD LCD LT X h l memx memy rows cols w0 cr0 gm tau.
    destruct (mats_sizes _ _ _ _ MO) as (n & c0 & MC & NP & NZ & B1 & B2 & B3 & LG). fold m in LG. fold c in MC.
    destruct MO as (SH & MO'). destruct (api_gens_commit H A B C (length rx) (length ry) nz stream SH ltac:(destruct MO' as (_ & _ & Q & _); exact Q)) as (g' & comm' & d' & G1 & G2 & S1 & S2 & S3).
    rewrite Hg in G1. injection G1 as <-. fold Ps in G2, S2. rewrite Hc in G2. injection G2 as <- <-. fold c in S3. rewrite NP, <- LG in S2.
    assert (LB : forall P, In P Ps -> (length (sM P) <= 2 ^ m)%nat) by (intros P I; rewrite LG, <- NP; etransitivity; [apply max_ge, I|apply next_pow2_ge]).
    assert (LR := rows_len m Ps LB). assert (LC := cols_len m Ps LB). assert (LV := vals_len m Ps LB). fold rows in LR. fold cols in LC.
    (* the run *)
    unfold spar_verify in X. destruct (equalize rx ry) as [x y] eqn:EQ.
    destruct (equalize_ok rx ry) as (Lx & Ly & _). rewrite EQ in Lx, Ly. cbn [fst snd] in Lx, Ly. fold c in Lx, Ly.
    assert (Ex : x = repeat 0 (c - length rx) ++ rx /\ y = repeat 0 (c - length ry) ++ ry).
    { unfold equalize in EQ. injection EQ as <- <-. split; do 2 f_equal; unfold c; lia. }
    destruct Ex as [Ex Ey]. unfold pow2 in X. rewrite Lx, S3, Nat.eqb_refl in X. unfold challenge in X. fold w0 in X. fold cr0 gm in X. fold tau in X.
    unfold net_verify in X. rewrite Lx, Ly, Nat.eqb_refl, S2 in X. unfold pow2 in X. replace (next_pow2 (2 ^ m)) with (2 ^ m)%nat in X by (unfold next_pow2; rewrite Nat.log2_up_pow2 by lia; reflexivity).
    fold l h in X. destruct (ly_verify H l (2 ^ m) (2 ^ c) evals _) as [[[[[[cm rm] co] cd] ro] w3]| |] eqn:LY in X; cbn [bind] in X; try discriminate X.
    unfold ly_verify in LY. rewrite L3 in *.
    destruct (lyp_row l) as [[[ri rr] rw] ra] eqn:ER. destruct (lyp_col l) as [[[ci cr] cw] ca] eqn:EC. destruct (lyp_val l) as [dl dr] eqn:EV.
    intros w1 Zo Zm Ds.
    destruct (Nat.eqb_spec (length rw) 3) as [Lrw|]; [|discriminate LY]. destruct (Nat.eqb_spec (length rr) 3) as [Lrr|]; [|discriminate LY].
    destruct (subset_check (ri, rr, rw, ra)) eqn:SR; [|discriminate LY].
    destruct (Nat.eqb_spec (length cw) 3) as [Lcw|]; [|discriminate LY]. destruct (Nat.eqb_spec (length cr) 3) as [Lcr|]; [|discriminate LY].
    destruct (subset_check (ci, cr, cw, ca)) eqn:SC; [|discriminate LY]. destruct (Nat.eqb_spec (length dl) 3) as [Ldl|]; [|discriminate LY].
    destruct (dotp_check 3 dl dr evals _) as [[cs tq]| |] eqn:DC in LY; cbn [bind] in LY; try discriminate LY.
    destruct (dotp_check_inv 3 _ _ _ _ _ _ Ldl L3 DC) as (-> & -> & EE & LH).
    match type of LY with context [pcb_verify H (lyp_ops l) _ _ _ ?t] => change t with w1 in LY end.
    destruct (pcb_verify H (lyp_ops l) _ _ _ w1) as [[[[co' cd'] ro'] w2]| |] eqn:PO in LY; cbn [bind] in LY; try discriminate LY.
    destruct (pcb_verify H (lyp_mem l) _ _ _ w2) as [[[[cm' cdm] rm'] w3']| |] eqn:PM in LY; cbn [bind] in LY; try discriminate LY.
    injection LY; clear LY; intros -> -> -> -> -> ->.
    destruct (Nat.eqb_spec (length cm) 4) as [L4|]; [|discriminate X]. destruct (Nat.eqb_spec (length co) (4 * 3)) as [L12|]; [|discriminate X]. destruct (Nat.eqb_spec (length cd) (3 * 3)) as [L9|]; [|discriminate X].
    destruct cm as [|m0 [|m1 [|m2 [|m3 [|? ?]]]]]; try discriminate L4.
    unfold idx at 1 2 3 4 in X. cbn [nth_error of_opt bind] in X.
    pose proof (pcb_len _ _ _ _ _ _ _ _ _ PO) as Lro. pose proof (pcb_len _ _ _ _ _ _ _ _ _ PM) as Lrm.
    unfold hl_verify in X. destruct (hp_der h) as [er ec] eqn:ED. destruct (Nat.eqb_spec (length er) (length ec)) as [Lec|]; [|discriminate X].
    unfold de_verify in X. match type of X with bind (bind ?f _) _ = _ => destruct f as [[[rj v] u1]| |] eqn:N1; cbn [bind] in X; try discriminate X end.
    match type of X with bind ?f _ = _ => destruct f as [w4| |] eqn:V1; cbn [bind] in X; try discriminate X end.
    rewrite L9 in X. destruct (Nat.eqb_spec (3 * 3) (3 * length er)) as [Ler|]; [|discriminate X]. assert (Ler' : length er = 3%nat) by lia. rewrite Ler' in Lec.
    change (3 * 3 / 3)%nat with 3%nat in X.
    match type of X with bind ?f _ = _ => destruct f as [ck| |] eqn:CK; cbn [bind] in X; try discriminate X end.
    destruct (hp_row h) as [[rda rdt] rau] eqn:HR. destruct (hp_col h) as [[cda cdt] cau] eqn:HC.
    match type of X with bind ?f _ = _ => destruct f as [[[rj2 v2] u2]| |] eqn:N2; cbn [bind] in X; try discriminate X end.
    match type of X with bind ?f _ = _ => destruct f as [w5| |] eqn:V2; cbn [bind] in X; try discriminate X end.
    match type of X with bind ?f _ = _ => destruct f as [[[rj3 v3] u3]| |] eqn:N3; cbn [bind] in X; try discriminate X end.
    match type of X with bind ?f _ = _ => destruct f as [w6| |] eqn:V3; cbn [bind] in X; try discriminate X end.
    match type of X with bind ?f _ = _ => destruct f as [k1| |] eqn:C1; cbn [bind] in X; try discriminate X end.
    match type of X with bind ?f _ = _ => destruct f as [k2| |] eqn:C2; cbn [bind] in X; try discriminate X end.
    injection X as ->.
    exists co, cd, ro, w2, [m0; m1; m2; m3], cdm, rm, w3, w4, w5. split; [exact PO|]. split; [exact PM|]. cbn [fst snd].
    split; [exact (opened_resize _ _ _ _ _ _ _ _ _ _ _ _ _ N1 V1)|]. split; [exact (opened_resize _ _ _ _ _ _ _ _ _ _ _ _ _ N2 V2)|].
    split; [exact (opened_at _ _ _ [rau; cau] [rau; cau] _ 1 _ _ _ _ _ _ _ _ eq_refl (le_n 2) N3 V3)|].
    intros (OR & OC & OV & OD). rewrite HR in OR. rewrite HC in OC. rewrite ED in OD. unfold side_right in OR, OC. 
    assert (P3 : forall (za zb : list K * list K * K), za = zb -> fst (fst za) = fst (fst zb) /\ snd (fst za) = snd (fst zb) /\ snd za = snd zb) by (intros za zb ->; auto).
    apply P3 in OR. apply P3 in OC. cbn [fst snd] in OR, OC. destruct OR as (Ora & Ort & Oru). destruct OC as (Oca & Oct & Ocu).
    assert (Oer : er = map (fun D => mle D ro) RD) by exact (f_equal fst OD). assert (Oec : ec = map (fun D => mle D ro) CD) by exact (f_equal snd OD).
    fold rows in Ora, Ort, Oru. fold cols in Oca, Oct, Ocu.
    assert (LRDa : forall T, In T RD -> length T = (2 ^ m)%nat) by (intros T I; apply LT, in_or_app; left; exact I).
    assert (LCDa : forall T, In T CD -> length T = (2 ^ m)%nat) by (intros T I; apply LT, in_or_app; right; exact I).
    assert (Lmx : length memx = (2 ^ c)%nat) by (unfold memx; rewrite eq_evals_length, <- Ex, Lx; reflexivity).
    assert (Lmy : length memy = (2 ^ c)%nat) by (unfold memy; rewrite eq_evals_length, <- Ey, Ly; reflexivity).
    assert (SL : forall addrs, length (stamps m addrs) = length addrs) by (intro; unfold stamps; rewrite map_length, seq_length; reflexivity).
    assert (EA : forall addrs, map (fun a => mle (tbl a) ro) addrs = map (fun Z => mle Z ro) (map (@nats K) addrs)) by (intro; rewrite map_map; reflexivity).
    rewrite EA in Ora, Ort, Oca, Oct.
    assert (AL : forall k (l : list (list nat)), (forall a, In a l -> length a = (2 ^ k)%nat) -> all_len k (map (@nats K) l)) by (intros k q P Z I; apply (nats_in _ _ P Z I)).
    set (p0 := firstn 3 (skipn (0 * 3) co)) in *. set (p1 := firstn 3 (skipn (1 * 3) co)) in *. set (p2 := firstn 3 (skipn (2 * 3) co)) in *. set (p3 := firstn 3 (skipn (3 * 3) co)) in *.
    assert (LP : length p0 = 3%nat /\ length p1 = 3%nat /\ length p2 = 3%nat /\ length p3 = 3%nat) by (unfold p0, p1, p2, p3; rewrite !firstn_length, !skipn_length, L12; repeat split; reflexivity).
    assert (EP : co = p0 ++ p1 ++ p2 ++ p3).
    { do 12 (destruct co as [|? co]; [discriminate L12|]). destruct co; [reflexivity|discriminate L12]. }
    clearbody p0 p1 p2 p3. destruct LP as (Lp0 & Lp1 & Lp2 & Lp3).
    assert (UL : forall addrs, length (@nats K (audits c addrs)) = (2 ^ length rm)%nat) by (intro; unfold nats, audits; rewrite !map_length, seq_length, Lrm; reflexivity).
    rewrite Oer, Ora, Ort, Oru in C1. rewrite Oec, Oca, Oct, Ocu in C2.
    apply (check_conv x rm ro (map nats rows) RD (map nats (stamps m rows)) (nats (audits c rows))) in C1;
      [|congruence|apply UL|rewrite Lro; apply AL, LR|rewrite Lro; exact LRDa|rewrite Lro; apply AL; intros a I; exact (stamps_len m rows a I)|rewrite map_length, LRD; reflexivity|rewrite !map_length, SL; reflexivity|rewrite map_length, Lp0; reflexivity|rewrite map_length, Lp1; reflexivity].
    apply (check_conv y rm ro (map nats cols) CD (map nats (stamps m cols)) (nats (audits c cols))) in C2;
      [|congruence|apply UL|rewrite Lro; apply AL, LC|rewrite Lro; exact LCDa|rewrite Lro; apply AL; intros a I; exact (stamps_len m cols a I)|rewrite map_length, LCD; reflexivity|rewrite !map_length, SL; reflexivity|rewrite map_length, Lp2; reflexivity|rewrite map_length, Lp3; reflexivity].
    rewrite Lrm, Ex in C1. rewrite Lrm, Ey in C2. fold memx in C1. fold memy in C2.
    destruct (mem_tabs gm tau c memx rows Lmx) as [MX1 MX2]. destruct (mem_tabs gm tau c memy cols Lmy) as [MY1 MY2].
    rewrite MX1, MX2, <- !hashed_ops_is in C1 by (rewrite LRD; reflexivity). rewrite MY1, MY2, <- !hashed_ops_is in C2 by (rewrite LCD; reflexivity).
    destruct C1 as (I0 & I1 & I2 & I3). destruct C2 as (J0 & J1 & J2 & J3).
    assert (ECO : co = map (fun Z => mle Z ro) Zo) by (unfold Zo; rewrite !map_app, <- I1, <- I2, <- J1, <- J2; exact EP).
    assert (ECM : [m0; m1; m2; m3] = map (fun Z => mle Z rm) Zm) by (unfold Zm; cbn [map]; rewrite <- I0, <- I3, <- J0, <- J3; reflexivity).
    (* the dot products *)
    assert (LVS : length (stored_vals m Ps) = 3%nat) by reflexivity. set (VS := stored_vals m Ps) in *.
    assert (TD : map t1 Ds = RD /\ map t2 Ds = CD /\ map t3 Ds = VS).
    { unfold Ds. clear -LRD LCD LVS. destruct RD as [|? [|? [|? [|? ?]]]]; try discriminate LRD. destruct CD as [|? [|? [|? [|? ?]]]]; try discriminate LCD. destruct VS as [|? [|? [|? [|? ?]]]]; try discriminate LVS. repeat split. }
    assert (L3D : length Ds = 3%nat) by (destruct TD as (Q & _); rewrite <- LRD, <- Q, map_length; reflexivity).
    assert (TL : forall t, In t Ds -> tlen m t).
    { intros t I. destruct TD as (Q1 & Q2 & Q3). split; [|split]; [apply LRDa; rewrite <- Q1|apply LCDa; rewrite <- Q2|apply LV; fold VS; rewrite <- Q3]; apply in_map, I. }
    assert (ECD : cd = flat_map (fun t => [mle (t1 t) ro; mle (t2 t) ro; mle (t3 t) ro]) Ds).
    { destruct (mapM_inv _ _ _ CK) as [_ Q]. assert (Q3 : forall i, (i < 3)%nat -> nth (3 * i) cd 0 = nth i er 0 /\ nth (3 * i + 1) cd 0 = nth i ec 0 /\ nth (3 * i + 2) cd 0 = nth i (hp_val h) 0).
      { intros i Hi. destruct (Q i i (nth_error_seq 3 i Hi)) as (b & _ & F). clear Q.
        repeat match type of F with
          | bind ?e _ = _ => let N := fresh "N" in destruct e eqn:N; cbn [bind] in F; try discriminate F
          | (if feqb ?a ?b then _ else _) = _ => destruct (feqb_spec K a b); [|discriminate F]
          end.
        repeat match goal with N : idx _ _ = Ok _ |- _ => apply (idx_inv _ _ _ 0) in N; destruct N as [_ N] end. subst. repeat split; congruence. }
      destruct TD as (T1 & T2 & T3). rewrite Oer, Oec, OV in Q3. fold VS in Q3. rewrite <- T1, <- T2, <- T3 in Q3. clear -Q3 L9 L3D.
      destruct Ds as [|u0 [|u1 [|u2 [|? ?]]]]; try discriminate L3D. do 9 (destruct cd as [|? cd]; [discriminate L9|]). destruct cd; [|discriminate L9].
      destruct (Q3 0%nat ltac:(lia)) as (A1 & A2 & A3). destruct (Q3 1%nat ltac:(lia)) as (A4 & A5 & A6). destruct (Q3 2%nat ltac:(lia)) as (A7 & A8 & A9).
      cbn in A1, A2, A3, A4, A5, A6, A7, A8, A9. subst. reflexivity. }
    assert (LHO : forall s addrs D, length D = length addrs -> (forall a, In a addrs -> length a = (2 ^ m)%nat) -> (forall a, In a D -> length a = (2 ^ m)%nat) -> all_len m (hashed_ops gm tau s m addrs D) /\ length (hashed_ops gm tau s m addrs D) = length addrs).
    { intros s addrs D LD LA0 LD0. split; [|unfold hashed_ops; rewrite map_length, seq_length; reflexivity]. intros Z I. apply in_map_iff in I. destruct I as (i & <- & I). apply in_seq in I.
      assert (LN : length (nth i addrs []) = (2 ^ m)%nat) by (apply LA0, nth_In; lia).
      rewrite hashed_is, htab_length; unfold tbl; rewrite ?map_length; [exact LN|rewrite LN; apply LD0, nth_In; lia|rewrite LN; apply (stamps_len m addrs), nth_In; rewrite SL; lia]. }
    destruct (LHO 0 rows RD ltac:(rewrite LRD; reflexivity) LR LRDa) as [W1 W1']. destruct (LHO 1 rows RD ltac:(rewrite LRD; reflexivity) LR LRDa) as [W2 W2'].
    destruct (LHO 0 cols CD ltac:(rewrite LCD; reflexivity) LC LCDa) as [W3 W3']. destruct (LHO 1 cols CD ltac:(rewrite LCD; reflexivity) LC LCDa) as [W4 W4'].
    destruct (lyp_ops l) as [lo3 [[ol or] ow]] eqn:LO. destruct (lyp_mem l) as [lm3 [[ml mr] mw]] eqn:LM.
    destruct (pcb_sound H m Zo Ds lo3 ol or ow (rr ++ rw ++ cr ++ cw) (halves dl dr) w1 co cd ro w2 ltac:(lia)) as (_ & _ & SO);
      [unfold Zo; intros Z I; rewrite !in_app_iff in I; destruct I as [I|[I|[I|I]]]; [apply W1|apply W2|apply W3|apply W4]; exact I|exact TL|
       unfold Zo; rewrite !app_length, W1', W2', W3', W4', Lrr, Lrw, Lcr, Lcw; reflexivity|exact (eq_trans LH (f_equal (fun k => (k * 2)%nat) (eq_sym L3D)))|exact PO|exact ECO|exact ECD|].
    assert (cdm = []) as ->. { unfold pcb_verify in PM. rewrite log_2_pow in PM. cbn [bind] in PM. destruct (Nat.eqb _ _); [|discriminate PM]. exact (no_dotp _ _ _ _ _ _ _ _ _ _ _ _ PM). }
    destruct (pcb_sound H c Zm [] lm3 ml mr mw [ri; ra; ci; ca] [] w2 [m0; m1; m2; m3] [] rm w3 ltac:(lia)) as (_ & _ & SM);
      [unfold Zm, hashed_start, hashed_end, at_start, at_end; intros Z [<-|[<-|[<-|[<-|[]]]]]; rewrite !map_length, seq_length; assumption|intros ? []|reflexivity|reflexivity|exact PM|exact ECM|reflexivity|].
    unfold batch_fooled. cbn [bp_dotp bp_layers].
    destruct SO as [[SO1 SO2]|BO]; [|right; right; right; left; exact BO]. destruct SM as [[SM1 _]|BM]; [|right; right; right; right; exact BM].
    unfold Zm in SM1. cbn [map] in SM1. injection SM1 as M0 M1 M2 M3.
    assert (SP : rr = map fprod (hashed_ops gm tau 0 m rows RD) /\ rw = map fprod (hashed_ops gm tau 1 m rows RD) /\ cr = map fprod (hashed_ops gm tau 0 m cols CD) /\ cw = map fprod (hashed_ops gm tau 1 m cols CD)).
    { unfold Zo in SO1. rewrite !map_app in SO1. apply app_inj_len in SO1; [|rewrite map_length, W1', Lrr; reflexivity]. destruct SO1 as [Q1 SO1]. apply app_inj_len in SO1; [|rewrite map_length, W2', Lrw; reflexivity]. destruct SO1 as [Q2 SO1].
      apply app_inj_len in SO1; [|rewrite map_length, W3', Lcr; reflexivity]. destruct SO1 as [Q3 Q4]. auto. }
    destruct SP as (Q1 & Q2 & Q3 & Q4). unfold subset_check in SR, SC. apply feqb_true in SR, SC.
    destruct (memory_side gm tau m c memx rows RD ri ra rr rw Lmx LR LRDa ltac:(rewrite LRD; reflexivity) M0 M1 Q1 Q2 SR) as [XR|XR]; [|right; left; exact XR].
    destruct (memory_side gm tau m c memy cols CD ci ca cr cw Lmy LC LCDa ltac:(rewrite LCD; reflexivity) M2 M3 Q3 Q4 SC) as [XC|XC]; [|right; right; left; exact XC].
    left. destruct (d3_honest Ps rx ry m SH LB) as (D0 & D1 & D2 & D3). rewrite EQ in D0, D1, D2, D3. cbn [fst snd] in D0, D1, D2, D3. rewrite Ex, Ey in D0, D1, D2, D3. fold memx memy in D0, D1, D2, D3.
    rewrite <- D0. match goal with |- _ = map d3 ?q => assert (ED' : Ds = q) end.
    { destruct TD as (T1 & T2 & T3). rewrite <- (combine3 Ds), T1, T2, T3, XR, XC. unfold rows, cols, VS. rewrite <- combine3. rewrite D1, D2, D3. reflexivity. }
    rewrite <- ED'. rewrite EE. clear -SO2 TL L3D Ldl LH LG. rewrite LG in TL. unfold halves in *. set (q := combine dl dr) in *. clearbody q. clear Ldl.
    assert (Q : forall (q : list (K * K)) (Ds : list (triple K)), (forall t, In t Ds -> tlen (S n) t) -> flat_map (fun '(a, b) => [a; b]) q = map (fun t => dot3 (t1 t) (t2 t) (t3 t)) (cut Ds) -> map (fun '(a, b) => a + b) q = map d3 Ds).
    { clear. induction q as [|[a b] q IH]; intros [|t Ds] TL X; try discriminate X; [reflexivity|]. cbn [cut flat_map app map] in X. injection X as -> -> X.
      cbn [map]. rewrite (IH Ds); [|intros u I; apply TL; right; exact I|exact X]. f_equal. destruct (TL t (or_introl eq_refl)) as (A1 & A2 & A3). apply (dot3_halves n); assumption. }
    apply Q; assumption.
  Qed.

  (** ** few challenges hide a wrong read *)
  Lemma of_nat_inj N : (forall n, (1 <= n <= N)%nat -> (of_nat n : K) <> 0) -> forall a b, (a <= N)%nat -> (b <= N)%nat -> (of_nat a : K) = of_nat b -> a = b.
  Proof.
    intro CH. assert (Q : forall a b, (a < b)%nat -> (b <= N)%nat -> (of_nat a : K) <> of_nat b).
    { intros a b L B X. apply (CH (b - a)%nat ltac:(lia)). replace b with (a + (b - a))%nat in X by lia. rewrite of_nat_add in X.
      transitivity ((of_nat a + of_nat (b - a)) - of_nat a : K); [ring|]. rewrite <- X. ring. }
    intros a b A B X. destruct (Nat.lt_total a b) as [L|[->|L]]; [destruct (Q a b L B X)|reflexivity|destruct (Q b a L A (eq_sym X))].
  Qed.
  Lemma api_hides (mem : list K) (accs : list nat) (vals : list K) (gs : list K) : let N := (length mem + length accs)%nat in
    length vals = length accs -> (forall a, In a accs -> (a < length mem)%nat) -> (forall n, (1 <= n <= N)%nat -> (of_nat n : K) <> 0) -> NoDup gs ->
    (forall g, In g gs -> exists Ts, NoDup Ts /\ (N < length Ts)%nat /\ forall t, In t Ts -> hides g t mem accs vals) -> (length gs <= 2 * (N * N))%nat.
  Proof.
    intros N LV BA CH ND B. destruct gs as [|g0 gs']; [cbn; lia|].
    assert (NE : vals <> map (fun a => nth a mem 0) accs).
    { destruct (B g0 (or_introl eq_refl)) as (Ts & _ & LT & P). destruct Ts as [|t Ts]; [cbn in LT; lia|]. exact (proj1 (P t (or_introl eq_refl))). }
    assert (W : exists j, (j < length accs)%nat /\ nth j vals 0 <> nth (nth j accs 0%nat) mem 0).
    { destruct (existsb (fun j => negb (feqb (nth j vals 0) (nth (nth j accs 0%nat) mem 0))) (seq 0 (length accs))) eqn:X.
      - apply existsb_exists in X. destruct X as (j & I & X). apply in_seq in I. exists j. split; [lia|]. intro Q. rewrite Q, Field.feqb_refl in X. discriminate X.
      - exfalso. apply NE. apply (list_ext _ _ 0); [rewrite map_length; exact LV|]. intros j Hj. rewrite (nth_map0 _ _ _ 0%nat _) by lia.
        destruct (feqb_spec K (nth j vals 0) (nth (nth j accs 0%nat) mem 0)) as [Q|Q]; [exact Q|exfalso].
        assert (Y : existsb (fun j => negb (feqb (nth j vals 0) (nth (nth j accs 0%nat) mem 0))) (seq 0 (length accs)) = true); [|congruence].
        apply existsb_exists. exists j. split; [apply in_seq; lia|]. destruct (feqb_spec K (nth j vals 0) (nth (nth j accs 0%nat) mem 0)); [contradiction|reflexivity]. }
    destruct W as (j & Hj & Nj). set (lift := fun x : nat * K * nat => let '(a, v, s) := x in (of_nat a : K, v, of_nat s : K)).
    set (val := fun x : K => match find (fun a => feqb (of_nat a) x) (seq 0 (length mem)) with Some a => nth a mem 0 | None => 0 end).
    assert (VL : forall a, (a < length mem)%nat -> val (of_nat a) = nth a mem 0).
    { intros a La. unfold val. destruct (find _ _) as [b|] eqn:F.
      - apply find_some in F. destruct F as [Ib F]. apply in_seq in Ib. apply feqb_true in F. apply (of_nat_inj N CH) in F; [rewrite F; reflexivity|unfold N; lia|unfold N; lia].
      - assert (Q := find_none _ _ F a ltac:(apply in_seq; lia)). cbn beta in Q. rewrite Field.feqb_refl in Q. discriminate Q. }
    assert (LI : length (map lift (at_start mem)) = length mem) by (unfold at_start; rewrite !map_length, seq_length; reflexivity).
    assert (LO : length (claimed accs vals) = length accs) by (unfold claimed; rewrite map_length, seq_length; reflexivity).
    unfold N. rewrite <- LI, <- LO. apply (wrong_read (map lift (at_start mem)) (map lift (at_end mem accs)) (claimed accs vals) val (of_nat (nth j accs 0%nat)) (nth j vals 0) (of_nat (earlier accs j))).
    - unfold at_start, at_end. rewrite !map_length. reflexivity.
    - intros k Hk. apply CH. unfold N. lia.
    - intros a v s I. assert (Q : exists b, (b < length mem)%nat /\ a = of_nat b /\ v = nth b mem 0).
      { destruct I as [I|I]; apply in_map_iff in I; destruct I as ([[b v'] s'] & Q & I); cbn in Q; injection Q as <- <- <-; unfold at_start, at_end in I; apply in_map_iff in I; destruct I as (b' & Q & I); injection Q as <- <- _;
        apply in_seq in I; exists b'; (split; [lia|split; reflexivity]). }
      destruct Q as (b & Lb & -> & ->). symmetry. apply VL, Lb.
    - unfold claimed. apply in_map_iff. exists j. split; [reflexivity|apply in_seq; lia].
    - rewrite VL by (apply BA, nth_In, Hj). exact Nj.
    - exact ND.
    - intros g Ig. destruct (B g Ig) as (Ts & D & L & P). exists Ts. split; [exact D|]. split; [rewrite LI, LO; exact L|]. intros t It. destruct (P t It) as [_ Q].
      assert (FL : forall l, map (fingerprint g t) (map lift l) = map (fpr g t) l) by (intro l; rewrite map_map; apply map_ext; intros [[a v] s]; reflexivity). rewrite !FL. exact Q.
  Qed.

  (** ** what is committed to *)
  Lemma api_committed (A B C : sparse K) (rx ry : list K) nz (stream : nat -> G) (g : sgens) (comm : scomm) (d : mdense) :
    let Ps := [A; B; C] in let m := Nat.log2_up nz in let c := Nat.max (length rx) (length ry) in
    mats_ok Ps rx ry nz -> sgens_new (length rx) (length ry) nz 3 stream = Ok g -> multi_commit H Ps g = Ok (comm, d) ->
    let rows := stored_rows m Ps in let cols := stored_cols m Ps in
    let tables := map tbl rows ++ map tbl (stamps m rows) ++ map tbl cols ++ map tbl (stamps m cols) ++ stored_vals m Ps in
    exists po pm bo bm to tm, dense_new (fill (4 + m) 0 (concat tables)) = Ok po /\ dense_new (tbl (audits c rows) ++ tbl (audits c cols)) = Ok pm /\
      poly_commit H po (sg_ops g) None = Ok (sc_ops comm, bo, to) /\ poly_commit H pm (sg_mem g) None = Ok (sc_mem comm, bm, tm).
  Proof.
    intros Ps m c MO Hg Hc rows cols tables. destruct (mats_sizes _ _ _ _ MO) as (n & c0 & MC & NP & NZ & _ & _ & _ & LG). fold m in LG. fold c in MC. destruct MO as (SH & _).
    rewrite <- LG in NP. assert (LB : forall P, In P Ps -> (length (sM P) <= 2 ^ m)%nat) by (intros P I; rewrite <- NP; etransitivity; [apply max_ge, I|apply next_pow2_ge]).
    assert (LR := rows_len m Ps LB). assert (LC := cols_len m Ps LB). assert (LV := vals_len m Ps LB). fold rows in LR. fold cols in LC.
    destruct (multi_dense_ok A B C _ _ m c SH eq_refl NP) as (d' & rr & ar & rc & ac & MD & MI & _ & _ & _ & CR & CC). fold Ps in MD, MI, CR, CC.
    destruct (counted_is m c rows rr ar LR CR) as [-> ->]. destruct (counted_is m c cols rc ac LC CC) as [-> ->].
    destruct MI as (_ & _ & _ & (EO & LO & NO) & EM & LRU & LCU).
    unfold multi_commit in Hc. rewrite MD in Hc. cbn [bind] in Hc.
    destruct (poly_commit H (md_ops d') (sg_ops g) None) as [[[co bo] to]| |] eqn:PO; [|discriminate Hc..]. cbn [bind] in Hc.
    destruct (poly_commit H (md_mem d') (sg_mem g) None) as [[[cm bm] tm]| |] eqn:PM; [|discriminate Hc..]. cbn [bind] in Hc.
    match type of Hc with bind ?f _ = _ => destruct f; cbn [bind] in Hc; try discriminate Hc end. injection Hc; clear Hc; intros _ <-. cbn [sc_ops sc_mem].
    assert (E15 : length (map (@nats K) (rows_of m Ps) ++ map nats (stamps m rows) ++ map nats (cols_of m Ps) ++ map nats (stamps m cols) ++ vals_of m Ps) = 15%nat) by (rewrite !app_length, !map_length; reflexivity).
    rewrite E15 in EO. change (Nat.log2_up 15) with 4%nat in EO.
    assert (EF : resize_pow2 (concat (map (@nats K) (rows_of m Ps) ++ map nats (stamps m rows) ++ map nats (cols_of m Ps) ++ map nats (stamps m cols) ++ vals_of m Ps)) = fill (4 + m) 0 (concat tables)).
    { unfold resize_pow2, fill. change (map (@nats K) (rows_of m Ps) ++ map nats (stamps m rows) ++ map nats (cols_of m Ps) ++ map nats (stamps m cols) ++ vals_of m Ps) with tables in *.
      rewrite (concat_length_const K _ _ LO), E15, next_pow2_mul by lia. change (next_pow2 15) with 16%nat. rewrite Nat.pow_add_r. reflexivity. }
    rewrite EF in EO. exists (md_ops d'), (md_mem d'), bo, bm, to, tm. repeat split; try assumption.
    - rewrite EO. apply dense_new_dt. unfold fill. rewrite app_length, repeat_length.
      change (map (@nats K) (rows_of m Ps) ++ map nats (stamps m rows) ++ map nats (cols_of m Ps) ++ map nats (stamps m cols) ++ vals_of m Ps) with tables in *.
      rewrite (concat_length_const K _ _ LO), E15, Nat.pow_add_r. change (2 ^ 4)%nat with 16%nat. lia.
    - rewrite EM. apply dense_new_dt. etransitivity; [apply app_length|]. change (length (@nats K (audits c rows)) + length (@nats K (audits c cols)) = 2 ^ S c)%nat. rewrite LRU, LCU. cbn. lia.
  Qed.
End Accept.
