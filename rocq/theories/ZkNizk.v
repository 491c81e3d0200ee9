(** The whole proof of satisfiability simulated: the challenges and fresh random numbers determine
    it, and the witness only enters through a permutation of the random numbers. *)
From Coq Require Import String List Arith Bool Lia Field.
From Verif Require Import Base ListAux Field Vec MathModel PolyModel PolySpec PolyProofs PolyImp R1csModel R1csSpec R1csProofs R1csMore CommitModel SigmaModel CommitSpec CommitProofs SigmaProofs BulletProofs LogProofs SumModel SumSpec SumProofs SumComplete SumZk SumApi NizkModel NizkProofs EqSpec ZkSpec ZkProofs ZkLog ZkSum.
Import ListNotations.

(** * Permutations that act on segments, each knowing the segments before it *)
Section Steps.
  Context {K : Fld}.
  Add Field Kst : (fth K).
  Local Open Scope fld_scope.
  Fixpoint cut (ns : list nat) (l : list K) : list (list K) :=
    match ns with [] => [] | n :: ns' => firstn n l :: cut ns' (skipn n l) end.
  Lemma cut_concat : forall segs, cut (map (@length K) segs) (concat segs) = segs.
  Proof.
    induction segs as [|s segs IH]; [reflexivity|]. cbn [map concat cut]. rewrite firstn_app, skipn_app, Nat.sub_diag, firstn_all, skipn_all. cbn [firstn skipn app].
    rewrite app_nil_r, IH. reflexivity.
  Qed.
  Lemma cut_lens : forall ns l, length l = list_sum ns -> map (@length K) (cut ns l) = ns /\ concat (cut ns l) = l.
  Proof.
    induction ns as [|n ns IH]; intros l L; cbn [cut map concat].
    - destruct l; [split; reflexivity|discriminate L].
    - change (list_sum (n :: ns)) with (n + list_sum ns)%nat in L. destruct (IH (skipn n l)) as [A B]; [rewrite skipn_length; lia|]. rewrite A, B, firstn_length_le by lia. split; [reflexivity|apply firstn_skipn].
  Qed.
  Lemma concat_sum : forall segs : list (list K), length (concat segs) = list_sum (map (@length K) segs).
  Proof. induction segs as [|s segs IH]; [reflexivity|]. cbn [concat]. rewrite app_length, IH. reflexivity. Qed.

  Record step := MkStep { st_n : nat; st_f : list (list K) -> list K -> list K; st_b : list (list K) -> list K -> list K }.
  Definition good (s : step) : Prop := forall u l, length l = st_n s ->
    length (st_f s u l) = st_n s /\ length (st_b s u l) = st_n s /\ st_b s u (st_f s u l) = l /\ st_f s u (st_b s u l) = l.
  Fixpoint runs (ss : list step) (u : list (list K)) (segs : list (list K)) : list (list K) :=
    match ss, segs with s :: ss', v :: segs' => st_f s u v :: runs ss' (u ++ [v]) segs' | _, _ => [] end.
  Fixpoint back (ss : list step) (u : list (list K)) (segs : list (list K)) : list (list K) :=
    match ss, segs with s :: ss', v :: segs' => let w := st_b s u v in w :: back ss' (u ++ [w]) segs' | _, _ => [] end.
  Lemma runs_good : forall ss, Forall good ss -> forall u segs, map (@length K) segs = map st_n ss ->
    map (@length K) (runs ss u segs) = map st_n ss /\ map (@length K) (back ss u segs) = map st_n ss /\ back ss u (runs ss u segs) = segs /\ runs ss u (back ss u segs) = segs.
  Proof.
    induction ss as [|s ss IH]; intros F u segs L; destruct segs as [|v segs]; try discriminate L; [repeat split|].
    injection L as L1 L2. inversion F as [|? ? Gs Fs]; subst. destruct (Gs u v L1) as (A1 & A2 & A3 & A4).
    cbn [runs back map]. rewrite A1, A2, A3, A4. destruct (IH Fs (u ++ [v]) segs L2) as (B1 & _ & B3 & _). destruct (IH Fs (u ++ [st_b s u v]) segs L2) as (_ & C2 & _ & C4).
    rewrite B1, C2, B3, C4. repeat split.
  Qed.
  Lemma steps_perm ss : Forall good ss -> permutes (list_sum (map st_n ss)) (fun l => concat (runs ss [] (cut (map st_n ss) l))).
  Proof.
    intro F. exists (fun l => concat (back ss [] (cut (map st_n ss) l))). intros l L. destruct (cut_lens _ l L) as [A B].
    destruct (runs_good ss F [] _ A) as (C1 & C2 & C3 & C4). rewrite !concat_sum, C1, C2. split; [reflexivity|]. split; [reflexivity|].
    split; [rewrite <- C1 at 1|rewrite <- C2 at 1]; rewrite cut_concat, ?C3, ?C4; exact B.
  Qed.

  Definition fixl (n : nat) (l : list K) : list K := firstn n (l ++ repeat 0 n).
  Lemma fixl_length n l : length (fixl n l) = n.
  Proof. unfold fixl. rewrite firstn_length_le; [reflexivity|]. rewrite app_length, repeat_length. lia. Qed.
  Lemma fixl_id n l : length l = n -> fixl n l = l.
  Proof. intros <-. unfold fixl. rewrite firstn_app, Nat.sub_diag, firstn_all. cbn. apply app_nil_r. Qed.
  Definition sh (n : nat) (S : list (list K) -> list K) : step :=
    MkStep n (fun u v => map2 fadd (fixl n (S u)) v) (fun u v => map2 (fun x y => y - x) (fixl n (S u)) v).
  Lemma shift_inv : forall (s l : list K), length s = length l ->
    map2 (fun x y => y - x) s (map2 fadd s l) = l /\ map2 fadd s (map2 (fun x y => y - x) s l) = l.
  Proof. induction s as [|x s IH]; intros [|y l] L; try discriminate L; [split; reflexivity|]. cbn [map2]. destruct (IH l) as [A B]; [now injection L|]. rewrite A, B. split; f_equal; ring. Qed.
  Lemma sh_good n S : good (sh n S).
  Proof.
    intros u l L. cbn [st_n st_f st_b sh] in *. destruct (shift_inv (fixl n (S u)) l) as [A B]; [rewrite fixl_length; symmetry; exact L|].
    rewrite !map2_length, fixl_length, L, Nat.min_id. repeat split; assumption.
  Qed.
End Steps.

Section LP.
  Context {K : Fld} {G : Mod K} {E : Enc G}.
  Add Field Klps : (fth K).
  Local Open Scope fld_scope.
  Local Notation cmp := (compress E).

  Definition lp_unpad (k : nat) (us : list K) (S : list K) (cy ah c bG dq : K) (l : list K) : list K :=
    match l with
    | d :: rd :: rb :: v => let v0 := map2 (fun x y => y - x) S v in let d0 := d - cy in let rb0 := rb - d0 * dq in
        d0 :: (rd - ah * (c * fold_bl us (combine (firstn (2 * k) v0) (skipn (2 * k) v0)) bG + rb0)) :: rb0 :: v0
    | _ => l
    end.
  Lemma lp_pad_inv k us S cy ah c bG dq l : length S = (4 * k)%nat -> length l = (3 + 4 * k)%nat ->
    length (lp_pad k us S cy ah c bG dq l) = (3 + 4 * k)%nat /\ length (lp_unpad k us S cy ah c bG dq l) = (3 + 4 * k)%nat /\
    lp_unpad k us S cy ah c bG dq (lp_pad k us S cy ah c bG dq l) = l /\ lp_pad k us S cy ah c bG dq (lp_unpad k us S cy ah c bG dq l) = l.
  Proof.
    intros L Ll. destruct l as [|d [|rd [|rb v]]]; try discriminate Ll. assert (Lv : length v = (4 * k)%nat) by (cbn [length] in Ll; lia). destruct (shift_inv S v) as [F3 F4]; [congruence|].
    cbn [lp_pad lp_unpad length plus]. rewrite F3, F4, !map2_length, L, Lv, Nat.min_id. repeat split.
    - f_equal; [ring|]. replace (rb + d * dq - (d + cy - cy) * dq) with rb by ring. f_equal. ring.
    - f_equal; [ring|]. f_equal; [ring|]. f_equal. ring.
  Qed.
  Definition lp_unpadx (g : dgens G) (k : nat) (a : list K) (dl : G -> K) (x : list K) (bx by_ r : K) (us : list K) (c : K) : list K -> list K :=
    let Q := gmul r (nth 0 (gG (dg1 g)) g0) in
    let cr := cross k Q (gG (dgN g)) x a us in
    let ah := dot a (tab (2 ^ k) (sval us)) in
    lp_unpad k us ((map dl (map fst cr) ++ repeat 0 k) ++ map dl (map snd cr) ++ repeat 0 k) (c * (fold_a k x us * ah)) ah c (bx + r * by_) (dl Q).
  Definition lps g k a dl x (bx by_ : list (list K) -> K) r us c : step (K:=K) :=
    MkStep (3 + 4 * k) (fun u => lp_padx g k a dl x (bx u) (by_ u) r us c) (fun u => lp_unpadx g k a dl x (bx u) (by_ u) r us c).
  Lemma lps_good g k a dl x bx by_ r us c : length us = k -> good (lps g k a dl x bx by_ r us c).
  Proof. intros L u l Ll. cbn [st_n st_f st_b lps] in *. apply lp_pad_inv; [|exact Ll]. rewrite !app_length, !repeat_length, !map_length, cross_length by exact L. lia. Qed.

  (** * Opening the committed polynomial *)
  Lemma pe_x H (Z r : list K) (g : dgens G) stream (dl : G -> K) bl be (tr tape : log E) pf CZ tr' tape' :
    length Z = (2 ^ length r)%nat -> (length r - length r / 2 < 32)%nat -> pcgens_new (length r) stream = Ok g ->
    (forall P, gmul (dl P) (gh (dgN g)) = P) -> length bl = (2 ^ (length r / 2))%nat ->
    pe_prove H (MkDense (length r) (2 ^ length r) Z) (Some bl) r (mle Z r) (Some be) g tr tape = Ok (pf, CZ, tr', tape') ->
    let k := (length r - length r / 2)%nat in let L := fst (compute_factored_evals r) in let R := snd (compute_factored_evals r) in
    let rows := tab (2 ^ (length r / 2)) (fun j => firstn (2 ^ k) (skipn (2 ^ k * j) Z)) in
    exists rr us c, length us = k /\ replies H tr' = replies H tr ++ rr :: us ++ [c] /\ tape' = after (lp_labels k) tape /\ CZ = cmp (ped1 (dg1 g) (mle Z r) be) /\
      pf = lp_sim (dgN g) (dg1 g) k R (cmp (lincomb L (map2 (ped (dgN g)) rows bl))) CZ rr us c
             (lp_padx g k R dl (vecmat (2 ^ k) L rows) (dot bl L) be rr us c (drawn H (lp_labels k) tape)).
  Proof.
    intros LZ L32 Hg D Lbl X. cbn zeta.
    destruct (bound_dot K Z r LZ) as (LZv & EB & LLZ & DLZ & HN). pose proof (factored_ok K r) as F.
    destruct (compute_factored_evals r) as [L R] eqn:EF. cbn [fst snd] in *. destruct F as (HL & HR & _).
    pose proof (dense_bound_vecmat Z r L LZv LZ HL LLZ HN) as EV.
    set (m := (length r / 2)%nat) in *. set (w := (2 ^ (length r - m))%nat) in *.
    set (rows := tab (2 ^ m) (fun j => firstn w (skipn (w * j) Z))) in *.
    assert (HRw : forall row, In row rows -> length row = w).
    { intros row Hrow. apply in_map_iff in Hrow. destruct Hrow as (j & <- & Hj). apply in_seq in Hj.
      assert (Hm : (m <= length r)%nat) by (apply Nat.div_le_upper_bound; lia).
      assert (Hp : (2 ^ m * w = 2 ^ length r)%nat) by (unfold w; rewrite <- Nat.pow_add_r; f_equal; lia).
      rewrite firstn_length_le; [reflexivity|]. rewrite skipn_length, LZ, <- Hp. nia. }
    assert (Lrows : length rows = length bl) by (unfold rows; rewrite tab_length; congruence).
    pose proof Hg as Hg2. unfold pcgens_new, compute_factored_lens, snd, pow2 in Hg2. fold m in Hg2. fold w in Hg2.
    unfold pe_prove, compute_factored_lens in X. cbn [dnum_vars] in X. rewrite Nat.eqb_refl in X. fold m in X. unfold pow2 in X. rewrite Lbl, Nat.eqb_refl, EF, HL, HR in X. fold w in X. rewrite !Nat.eqb_refl, EB in X. cbn [bind] in X.
    assert (C1 : lincomb L (map2 (ped (dgN g)) rows bl) = ped (dgN g) LZv (dot bl L)).
    { rewrite lincomb_ped by exact Lrows. rewrite (vecmat_lincomb w) by exact HRw. unfold ped. rewrite <- EV. rewrite (dot_comm K L bl). reflexivity. }
    rewrite C1, <- EV. rewrite <- DLZ in X.
    destruct (lp_prove H g _ tape LZv (dot bl L) R (dot LZv R) be) as [[[[[pf0 Cx0] Cy0] tr0] tape0]| |] eqn:Elp; try discriminate X. cbn [bind] in X. injection X as <- <- <- <-.
    destruct (lp_x H stream g (length r - m) R dl LZv (dot bl L) be _ tape pf0 Cx0 Cy0 tr0 tape0 L32 HR Hg2 D LLZ Elp) as (rr & us & c & A1 & A2 & A3 & A4 & A5 & A6).
    exists rr, us, c. rewrite DLZ in A5. subst Cx0 Cy0. split; [exact A1|]. split; [exact A2|]. split; [exact A3|]. split; [reflexivity|exact A6].
  Qed.
  Lemma pc_x H (Z : list K) ell (g : dgens G) stream tape C bl tp : length Z = (2 ^ ell)%nat -> pcgens_new ell stream = Ok g ->
    poly_commit H (MkDense ell (2 ^ ell) Z) g (Some tape) = Ok (C, bl, tp) ->
    bl = drawn H (repeat "poly_blinds"%string (2 ^ (ell / 2))) tape /\ tp = Some (after (repeat "poly_blinds"%string (2 ^ (ell / 2))) tape) /\
    C = map cmp (map2 (ped (dgN g)) (tab (2 ^ (ell / 2)) (fun j => firstn (2 ^ (ell - ell / 2)) (skipn (2 ^ (ell - ell / 2) * j) Z))) bl).
  Proof.
    intros LZ Hg X. destruct (poly_commit_ok H Z ell g stream (Some tape) LZ Hg) as (bl' & tp' & Lb & _ & Epc). rewrite X in Epc. injection Epc as -> -> ->.
    rewrite Lb. unfold poly_commit in X. destruct (Nat.eqb (length _) _); [|discriminate X]. cbn [compute_factored_lens dnum_vars] in X. destruct (Nat.eqb _ _); [|discriminate X].
    unfold random_vector in X. rewrite challenges_drawn in X. unfold pow2 in X. destruct (commit_inner _ _ _) as [c| |]; try discriminate X. cbn [bind] in X. injection X as X1 X2 X3.
    rewrite <- X2, <- X3. repeat split.
  Qed.
  Lemma after_concat : forall LS (tape : log E), after (concat LS) tape = fold_left (fun t l => after l t) LS tape.
  Proof. induction LS as [|l LS IH]; intro tape; [reflexivity|]. cbn [concat fold_left]. rewrite after_app. apply IH. Qed.
  Fixpoint drawns (H : log E -> K) (LS : list (list string)) (tape : log E) : list (list K) :=
    match LS with [] => [] | l :: LS' => drawn H l tape :: drawns H LS' (after l tape) end.
  Lemma drawns_concat H : forall LS tape, concat (drawns H LS tape) = drawn H (concat LS) tape.
  Proof. induction LS as [|l LS IH]; intro tape; [reflexivity|]. cbn [drawns concat]. rewrite IH, drawn_app. reflexivity. Qed.
  Lemma drawns_lens H : forall LS tape, map (@length K) (drawns H LS tape) = map (@length string) LS.
  Proof. induction LS as [|l LS IH]; intro tape; [reflexivity|]. cbn [drawns map]. rewrite IH, drawn_length. reflexivity. Qed.
End LP.

Section N.
  Context {K : Fld} {G : Mod K} {E : Enc G}.
  Add Field Kzn : (fth K).
  Local Open Scope fld_scope.
  Local Notation cmp := (compress E).
  Variables (a b : nat) (I : r1cs K) (g : r1csgens G) (input : list K).
  Local Notation k := (b - b / 2)%nat.

  Definition okl {A} (x : res (list A)) : list A := match x with Ok l => l | _ => [] end.
  Definition abc_of (rx : list K) (rA rB rC : K) : list K :=
    let t P := okl (sparse_eval_table P (eq_evals rx) (2 ^ a) (2 ^ S b)) in
    map2 fadd (map2 (fun x y => rA * x + rB * y) (t (rc_A I)) (t (rc_B I))) (map (fmul rC) (t (rc_C I))).
  Definition cs_lens : list nat := [a; 4 * a; 1; 1; 1; 3; 4 * S b; 1; k; 1; 1]%nat.

  Definition r1cs_sim (C S : list (list K)) : r1csproof E * list K * list K :=
    let h := gh (rg1 g) in
    let q i := nth i C [] in let s i := nth i S [] in
    let q1 i j := nth j (nth i C []) 0 in let s1 i j := nth j (nth i S []) 0 in
    let P0 := map (fun x => gmul x h) (s 0%nat) in
    let rx := round_point a (q 1%nat) in
    let tcl := mle (eq_evals (q 0%nat)) rx in
    let sc1 := zk_sim (rg1 g) (rg4 g) 4 a (q 1%nat) (ped1 (rg1 g) 0 0) (s 1%nat) (s 2%nat) (s 3%nat) in
    let A := gmul (s1 4 0)%nat h in let B := gmul (s1 4 1)%nat h in let Cc := gmul (s1 4 2)%nat h in let P := gmul (s1 4 3)%nat h in
    let rA := q1 5%nat 0%nat in let rB := q1 5%nat 1%nat in let rC := q1 5%nat 2%nat in
    let ry := round_point (Datatypes.S b) (q 6%nat) in
    let sc2 := zk_sim (rg1 g) (rg3 g) 3 (Datatypes.S b) (q 6%nat) (gadd (gmul rA A) (gadd (gmul rB B) (gmul rC Cc))) (s 8%nat) (s 9%nat) (s 10%nat) in
    let ryt := tl ry in let ry0 := nth 0 ry 0 in
    let Pry := gmul (s1 11 0)%nat h in
    let LR := compute_factored_evals ryt in
    let mabc := mle (abc_of rx rA rB rC) ry in
    let inp := mle ([1] ++ input ++ repeat 0 (2 ^ b - length input - 1)) ryt in
    (MkRP (map cmp P0) sc1 (cmp A, cmp B, cmp Cc, cmp P)
       (kp_sim (rg1 g) (cmp Cc) (q1 2 0)%nat (s 5%nat))
       (pp_sim (rg1 g) (cmp A) (cmp B) (cmp P) (q1 3 0)%nat (s 6%nat))
       (ep_sim (rg1 g) (cmp (gmul tcl (gadd P (gopp Cc)))) (nth (a - 1) (zk_evals sc1) (cmp g0)) (q1 4 0)%nat (s 7%nat))
       sc2 (cmp Pry)
       (lp_sim (dgN (rgpc g)) (dg1 (rgpc g)) k (snd LR) (cmp (lincomb (fst LR) P0)) (cmp Pry) (q1 7 0)%nat (q 8%nat) (q1 9 0)%nat (s 12%nat))
       (ep_sim (rg1 g) (cmp (gmul mabc (gadd (gmul (1 - ry0) Pry) (gmul ry0 (ped1 (rg1 g) inp 0))))) (nth b (zk_evals sc2) (cmp g0)) (q1 10 0)%nat (s 13%nat)),
     rx, ry).

  Variables (dl1 dl3 dl4 : G -> K).
  Variable vars : list K.
  Definition nz_steps (C : list (list K)) : list step :=
    let q i := nth i C [] in let q1 i j := nth j (nth i C []) 0 in
    let G1 := nth 0 (gG (rg1 g)) g0 in
    let z := full_z vars input in
    let rx := round_point a (q 1%nat) in
    let mv P := okl (sparse_multiply_vec P (2 ^ a) (2 ^ S b) z) in
    let la := mv (rc_A I) in let lb := mv (rc_B I) in let lc := mv (rc_C I) in
    let Az := mle la rx in let Bz := mle lb rx in let Cz := mle lc rx in
    let tcl := mle (eq_evals (q 0%nat)) rx in
    let d l := MkDense a (2 ^ a) l in
    let zp1 := zpolys cubic_poly (on4 (fun a0 b0 c d => a0 * (b0 * c - d))) a 0 [d (eq_evals (q 0%nat)); d la; d lb; d lc] (q 1%nat) in
    let rA := q1 5%nat 0%nat in let rB := q1 5%nat 1%nat in let rC := q1 5%nat 2%nat in
    let abc := abc_of rx rA rB rC in
    let ry := round_point (S b) (q 6%nat) in
    let zp2 := zpolys quad_poly (on2 (fun a0 b0 => a0 * b0)) (S b) (rA * Az + rB * Bz + rC * Cz) [MkDense (S b) (2 ^ S b) z; MkDense (S b) (2 ^ S b) abc] (q 6%nat) in
    let LR := compute_factored_evals (tl ry) in
    let rows := tab (2 ^ (b / 2)) (fun j => firstn (2 ^ k) (skipn (2 ^ k * j) vars)) in
    let bz i u := nth i (nth 4 u []) 0 in let bev u := nth 0 (nth 11 u []) 0 in
    [ sh (2 ^ (b / 2)) (fun _ => map (fun row => dl1 (lincomb row (gG (dgN (rgpc g))))) rows);
      sh a (fun _ => poly_shift (rg4 g) dl4 zp1);
      sh a (fun _ => eval_shift (rg1 g) dl1 zp1);
      sh (a * 6) (fun u => zshift (q 1%nat) zp1 (nth 1 u []) (nth 2 u []) 0);
      sh 4 (fun _ => [dl1 (gmul Az G1); dl1 (gmul Bz G1); dl1 (gmul Cz G1); dl1 (gmul (Az * Bz) G1)]);
      sh 2 (fun u => [Cz * q1 2%nat 0%nat; bz 2%nat u * q1 2%nat 0%nat]);
      sh 5 (fun u => [q1 3%nat 0%nat * Az; q1 3%nat 0%nat * bz 0%nat u; q1 3%nat 0%nat * Bz; q1 3%nat 0%nat * bz 1%nat u; q1 3%nat 0%nat * (bz 3%nat u - bz 0%nat u * Bz)]);
      sh 1 (fun u => [q1 4%nat 0%nat * (tcl * (bz 3%nat u - bz 2%nat u) - nth (a - 1) (nth 2 u []) 0)]);
      sh (S b) (fun _ => poly_shift (rg3 g) dl3 zp2);
      sh (S b) (fun _ => eval_shift (rg1 g) dl1 zp2);
      sh (S b * 5) (fun u => zshift (q 6%nat) zp2 (nth 8 u []) (nth 9 u []) (rA * bz 0%nat u + rB * bz 1%nat u + rC * bz 2%nat u));
      sh 1 (fun _ => [dl1 (gmul (mle vars (tl ry)) G1)]);
      lps (rgpc g) k (snd LR) dl1 (vecmat (2 ^ k) (fst LR) rows) (fun u => dot (nth 0 u []) (fst LR)) bev (q1 7 0)%nat (q 8%nat) (q1 9 0)%nat;
      sh 1 (fun u => [q1 10%nat 0%nat * (mle abc ry * ((1 - nth 0 ry 0) * bev u) - nth b (nth 9 u []) 0)]) ].
  Lemma nz_steps_good C : length (nth 8 C []) = k -> Forall good (nz_steps C).
  Proof. intro L. unfold nz_steps. repeat (apply Forall_cons; [first [apply sh_good|apply lps_good, L]|]). apply Forall_nil. Qed.
  Lemma nz_steps_lens C : map st_n (nz_steps C) = map (@length string) (nizk_requests a b).
  Proof.
    unfold nz_steps, nizk_requests. cbn [map st_n sh lps]. rewrite !repeat_length, !app_length, !repeat_length. cbn [length].
    pose proof (round_labels_length 4 a) as R1. pose proof (round_labels_length 3 (S b)) as R2. unfold round_labels, dp_labels in R1, R2. rewrite R1, R2.
    repeat (f_equal; try lia).
  Qed.
End N.

Section F.
  Context {K : Fld} {G : Mod K} {E : Enc G}.
  Add Field Kzf : (fth K).
  Local Open Scope fld_scope.
  Hypothesis two : (of_nat 2 : K) <> 0.
  Hypothesis three : (of_nat 3 : K) <> 0.
  Local Notation cmp := (compress E).

  Lemma replies_after H : forall ls (tr : log E), replies H (after ls tr) = replies H tr ++ drawn H ls tr.
  Proof using.
    induction ls as [|l ls IH]; intro tr; [unfold after; cbn; now rewrite app_nil_r|]. change (l :: ls) with ([l] ++ ls) at 1. rewrite after_app, IH. cbn [after map rev app replies drawn].
    rewrite <- app_assoc. reflexivity.
  Qed.
  Lemma replies_commitment H s (C : list E) (tr : log E) : replies H (app_commitment s C tr) = replies H tr.
  Proof using.
    unfold app_commitment. cbn [replies]. rewrite <- map_rev. induction (rev C) as [|c l IH]; [reflexivity|]. exact IH.
  Qed.
  Lemma zk_last H (pf : zkproof E) C n d g1 gN (tr : log E) ce r tr' : zk_verify H pf C n d g1 gN tr = Ok (ce, r, tr') -> nth (n - 1) (zk_evals pf) (cmp g0) = ce.
  Proof using.
    intro V. unfold zk_verify in V. repeat (destruct (Nat.eqb _ _) in V; [|discriminate V]). destruct (zk_rounds _ _ _ _ _ _ _ _ _) as [[r1 t1]| |]; try discriminate V. cbn [bind] in V.
    destruct (Nat.leb 1 n); [|discriminate V]. unfold idx in V. destruct (nth_error (zk_evals pf) (n - 1)) as [e|] eqn:X; [|discriminate V]. cbn [of_opt bind] in V. injection V as <- <- <-.
    apply nth_error_nth, X.
  Qed.
  Lemma ped_dl (gs : gens G) (dl : G -> K) (D : forall P, gmul (dl P) (gh gs) = P) : forall (rows : list (list K)) bl, length rows = length bl ->
    map (fun x => gmul x (gh gs)) (map2 fadd (map (fun row => dl (lincomb row (gG gs))) rows) bl) = map2 (ped gs) rows bl.
  Proof using.
    induction rows as [|row rows IH]; intros [|x bl] L; try discriminate L; [reflexivity|]. cbn [map map2]. rewrite IH by (now injection L). f_equal.
    unfold ped. rewrite <- (D (lincomb row (gG gs))) at 2. module_red; ring.
  Qed.

  Lemma r1cs_x H (I : r1cs K) (a b : nat) (vars input : list K) stream (g : r1csgens G) (dl1 dl3 dl4 : G -> K) (tr tape : log E) pf rx ry tr' tape' :
    sized I a b -> (1 <= a)%nat -> (b - b / 2 < 32)%nat -> length vars = (2 ^ b)%nat -> length input = rc_inputs I ->
    r1csgens_new (2 ^ b) stream = Ok g ->
    (forall P, gmul (dl1 P) (gh (rg1 g)) = P) -> (forall P, gmul (dl3 P) (gh (rg3 g)) = P) -> (forall P, gmul (dl4 P) (gh (rg4 g)) = P) ->
    sat (2 ^ a) (triples (sM (rc_A I))) (triples (sM (rc_B I))) (triples (sM (rc_C I))) (vars ++ [1] ++ input) ->
    r1cs_prove H I vars input g tr tape = Ok (pf, rx, ry, tr', tape') ->
    exists C, map (@length K) C = cs_lens a b /\ replies H tr' = replies H tr ++ concat C /\ tape' = after (concat (nizk_requests a b)) tape /\
      (pf, rx, ry) = r1cs_sim a b I g input C (runs (nz_steps a b I g input dl1 dl3 dl4 vars C) [] (drawns H (nizk_requests a b) tape)).
  Proof using two three.
    intros S Ha Hb Lv Li Hg D1 D3 D4 Sat X. pose proof S as [Ec Ev Ei (xa & ya & OA) (xb & yb & OB) (xc & yc & OC)].
    destruct (rgens_facts b stream g Hg) as (E1 & G1 & N1 & G3 & N3 & G4 & N4 & Epc).
    assert (Lz : length (full_z vars input) = (2 ^ Datatypes.S b)%nat) by (rewrite full_z_length, Lv, pow2_S; lia).
    unfold r1cs_prove in X. replace (Nat.ltb (length input) (length vars)) with true in X by (symmetry; apply Nat.ltb_lt; lia).
    destruct (dense_new_ok K vars b Lv) as (Ed & Od & Ld). rewrite Ed in X. cbn [bind] in X.
    destruct (poly_commit H (MkDense b (2 ^ b) vars) (rgpc g) (Some tape)) as [[[C0 blinds] tp']| |] eqn:Ecm; try discriminate X. cbn [bind] in X.
    destruct (pc_x H vars b (rgpc g) stream tape C0 blinds tp' Lv Epc Ecm) as (Ebl & -> & EC0). cbn [of_opt bind] in X.
    set (tape1 := after (repeat "poly_blinds"%string (2 ^ (b / 2))) tape) in *.
    assert (Lbl : length blinds = (2 ^ (b / 2))%nat) by (rewrite Ebl, drawn_length; apply repeat_length).
    set (rows := tab (2 ^ (b / 2)) (fun j => firstn (2 ^ (b - b / 2)) (skipn (2 ^ (b - b / 2) * j) vars))) in *.
    rewrite Ec, Lz, !log_2_pow in X. cbn [bind] in X.
    set (tr0 := app_commitment _ _ _) in X. rewrite challenges_drawn in X. fold (after (repeat "challenge_tau"%string a) tr0) in X. set (tr1 := after _ tr0) in X.
    set (tau := drawn H _ tr0) in X. assert (Lt : length tau = a) by (unfold tau; rewrite drawn_length; apply repeat_length).
    assert (R1 : replies H tr1 = replies H tr ++ tau). { unfold tr1. rewrite replies_after. fold tau. unfold tr0. rewrite replies_commitment, replies_scalars. reflexivity. }
    clearbody tau tr1. clear tr0.
    assert (Let : length (eq_evals tau) = (2 ^ a)%nat) by (rewrite eq_evals_length, Lt; reflexivity).
    destruct (dense_new_ok K (eq_evals tau) a Let) as (Et & Ot & LLt). rewrite Et in X. cbn [bind] in X.
    set (z := full_z vars input) in *.
    destruct (multiply_vec_ok K (rc_A I) (2 ^ a) _ z Lz OA) as (la & Ela & Lla & Nla).
    destruct (multiply_vec_ok K (rc_B I) (2 ^ a) _ z Lz OB) as (lb & Elb & Llb & Nlb).
    destruct (multiply_vec_ok K (rc_C I) (2 ^ a) _ z Lz OC) as (lc & Elc & Llc & Nlc).
    destruct (dense_new_ok K la a Lla) as (Eda & Oda & Lda). destruct (dense_new_ok K lb a Llb) as (Edb & Odb & Ldb). destruct (dense_new_ok K lc a Llc) as (Edc & Odc & Ldc).
    unfold r1cs_multiply_vec in X. rewrite Ec, Lz, !Nat.eqb_refl, Ev in X.
    assert (Hlt : Nat.ltb (2 ^ b) (2 ^ Datatypes.S b) = true) by (apply Nat.ltb_lt; rewrite pow2_S; pose proof (pow2_pos b); lia). rewrite Hlt in X.
    rewrite Ela in X. cbn [bind] in X. rewrite Eda in X. cbn [bind] in X. rewrite Elb in X. cbn [bind] in X. rewrite Edb in X. cbn [bind] in X. rewrite Elc in X. cbn [bind] in X. rewrite Edc in X. cbn [bind] in X.
    (* phase one *)
    unfold prove_phase_one in X.
    destruct (api_additive H two three (fun a0 b0 c d => a0 * (b0 * c - d)) a _ _ _ _ 0 0 (rg1 g) (rg4 g) tr1 tape1 add_cubic G1 N1 G4 N4 Ha Ot Oda Odb Odc eq_refl eq_refl eq_refl eq_refl) as (sc1 & rx' & ps1 & bl1 & tr2 & tape2 & Lrx & Ep1 & Dl & V1).
    { rewrite LLt, Lda, Ldb, Ldc. symmetry. apply sumn_zero. intros i Hi. rewrite Nla, Nlb, Nlc by exact Hi.
      rewrite !(row_val_ext _ i z (vars ++ [1] ++ input)) by (intro j; apply full_z_nth). rewrite (Sat i Hi). ring. }
    rewrite LLt, Lda, Ldb, Ldc in Ep1, V1. rewrite Ep1 in X. cbn [bind] in X. apply zk_last in V1.
    unfold prove_cubic_additive in Ep1.
    destruct (zk_prove H cubic_poly _ 0 0 a _ (rg1 g) (rg4 g) tr1 tape1) as [[[[[[pf1 r1] p1] b1] t1] tp1]| |] eqn:Ez1; try discriminate Ep1. cbn [bind] in Ep1.
    destruct (mapM _ p1) as [fin1| |]; try discriminate Ep1. cbn [bind] in Ep1. injection Ep1 as -> -> -> Ef1 -> -> ->. clear Ef1 fin1.
    apply (zk_prove_x _ _ (rg1 g) (rg4 g) 4 dl1 dl4 D1 D4 (fun e v p => cubic_mk e v p two three) ltac:(lia) G1 N1 G4 N4) in Ez1. cbn zeta in Ez1.
    set (bps1 := drawn H (repeat "blinds_poly"%string a) tape1) in *. set (tapeA := after (repeat "blinds_poly"%string a) tape1) in *.
    set (bes1 := drawn H (repeat "blinds_evals"%string a) tapeA) in *. set (tapeB := after (repeat "blinds_evals"%string a) tapeA) in *.
    destruct Ez1 as (cs1 & Lcs1 & R2 & Etp2 & Erx & Ebl1 & Lz1 & Ls1 & Esc1). set (zp1 := zpolys _ _ a _ _ _) in *.
    replace (forallb (fun p => Nat.eqb (dlen p) 1) ps1) with true in X by (symmetry; apply forallb_forall; intros p Hp; apply Nat.eqb_eq, Dl, Hp).
    cbn [idx nth_error of_opt bind] in X. unfold random_scalar at 1 2 3 4 in X. unfold challenge at 1 2 3 4 in X.
    set (tcl := mle (eq_evals tau) rx') in *. set (Az := mle la rx') in *. set (Bz := mle lb rx') in *. set (Cz := mle lc rx') in *.
    match type of X with context [kp_prove H (rg1 g) tr2 ?tp Cz ?bC] => set (tape3 := tp) in X; set (bCz := bC) in X end.
    match type of X with context [pp_prove H (rg1 g) _ _ Az ?bA Bz ?bB _ ?bP] => set (bAz := bA) in X; set (bBz := bB) in X; set (bPr := bP) in X end.
    assert (Etape3 : tape3 = after ["Az_blind"; "Bz_blind"; "Cz_blind"; "prod_Az_Bz_blind"]%string tape2) by reflexivity.
    assert (Ebs : drawn H ["Az_blind"; "Bz_blind"; "Cz_blind"; "prod_Az_Bz_blind"]%string tape2 = [bAz; bBz; bCz; bPr]) by reflexivity.
    clearbody tape3 bAz bBz bCz bPr.
    destruct (kp_prove H (rg1 g) tr2 tape3 Cz bCz) as [[[[pok cC] tr3] tape4]| |] eqn:Ek; try discriminate X. cbn [bind] in X.
    destruct (kp_x H (rg1 g) _ _ _ _ _ _ _ _ G1 N1 Ek) as (ck & R3 & Etape4 & EcC & Epok).
    destruct (pp_prove H (rg1 g) tr3 tape4 Az bAz Bz bBz (Az * Bz) bPr) as [[[[[[prod cA] cB] cP] tr4] tape5]| |] eqn:Epp; try discriminate X. cbn [bind] in X.
    destruct (pp_x H (rg1 g) _ _ _ _ _ _ _ _ _ _ _ _ _ G1 N1 Epp) as (cp & R4 & Etape5 & EcA & EcB & EcP & Eprod).
    set (tr5 := app_point "comm_prod_Az_Bz_claims" _ _) in X. assert (R5 : replies H tr5 = replies H tr4) by reflexivity. clearbody tr5.
    destruct (ep_prove H (rg1 g) tr5 tape5 _ _ _ _) as [[[[[eq1 c1] c2] tr6] tape6]| |] eqn:Ee1; try discriminate X. cbn [bind] in X.
    destruct (ep_x H (rg1 g) _ _ _ _ _ _ _ _ _ _ G1 N1 Ee1) as (ce1 & R6 & Etape6 & Ec1 & Ec2 & Eeq1).
    unfold challenge at 1 2 3 in X.
    match type of X with context [MChal "challenege_Cz" :: ?t] => set (trC := t) in X end.
    set (rA := H (MChal "challenege_Az" :: tr6)) in X. set (rB := H trC) in X. set (rC := H (MChal "challenege_Cz" :: trC)) in X.
    destruct (eval_table_ok K (rc_A I) (eq_evals rx') (2 ^ a) (2 ^ Datatypes.S b)) as (ta & Eta & Lta & Nta); [rewrite eq_evals_length, Lrx; reflexivity|exact OA|].
    destruct (eval_table_ok K (rc_B I) (eq_evals rx') (2 ^ a) (2 ^ Datatypes.S b)) as (tb & Etb & Ltb & Ntb); [rewrite eq_evals_length, Lrx; reflexivity|exact OB|].
    destruct (eval_table_ok K (rc_C I) (eq_evals rx') (2 ^ a) (2 ^ Datatypes.S b)) as (tc & Etc & Ltc & Ntc); [rewrite eq_evals_length, Lrx; reflexivity|exact OC|].
    unfold r1cs_eval_table in X. rewrite Ec, Nat.eqb_refl, Ev, Hlt, Eta in X. cbn [bind] in X. rewrite Etb in X. cbn [bind] in X. rewrite Etc in X. cbn [bind] in X. rewrite Lta, Ltb, Ltc, !Nat.eqb_refl in X.
    set (abc := map2 fadd _ _) in X. assert (Labc : length abc = (2 ^ Datatypes.S b)%nat) by (unfold abc; rewrite !map2_length, map_length; lia).
    assert (Nabc : forall j, (j < 2 ^ Datatypes.S b)%nat -> nth j abc 0 = rA * nth j ta 0 + rB * nth j tb 0 + rC * nth j tc 0).
    { intros j Hj. unfold abc. rewrite (map2_nth _ _ _ _ 0 0) by (rewrite ?map2_length, ?map_length; lia).
      rewrite (map2_nth _ _ _ _ 0 0) by lia. rewrite (nth_map0 _ _ _ 0) by lia. reflexivity. }
    assert (Eabc : abc = abc_of a b I rx' rA rB rC) by (unfold abc_of; rewrite Eta, Etb, Etc; reflexivity).
    destruct (dense_new_ok K z _ Lz) as (Edz & Odz & Ldz). destruct (dense_new_ok K abc _ Labc) as (Edabc & Odabc & Ldabc).
    rewrite Edz in X. cbn [bind] in X. rewrite Edabc in X. cbn [bind] in X. unfold prove_phase_two in X.
    match type of X with context [prove_quad H ?c ?bl _ _ _ _ _ _ ?t tape6] => set (claim2 := c) in X; set (blind2 := bl) in X; set (tr7 := t) in X end.
    assert (R7 : replies H tr7 = replies H tr6 ++ [rA; rB; rC]). { unfold tr7, trC, rC, rB, rA. cbn [replies]. rewrite <- !app_assoc. reflexivity. }
    destruct (api_quad H two (fun a0 b0 => a0 * b0) (Datatypes.S b) _ _ claim2 blind2 (rg1 g) (rg3 g) tr7 tape6 prod2_quad G1 N1 G3 N3 ltac:(lia) Odz Odabc eq_refl eq_refl)
      as (sc2 & ry' & ps2 & bl2 & tr8 & tape7 & Lry & Ep2 & V2).
    { rewrite Ldz, Ldabc. unfold claim2, Az, Bz, Cz.
      rewrite <- (table_claim _ a _ rx' z ta la Lrx Lz OA Eta Ela), <- (table_claim _ a _ rx' z tb lb Lrx Lz OB Etb Elb), <- (table_claim _ a _ rx' z tc lc Lrx Lz OC Etc Elc).
      rewrite <- !sumn_scale, <- !sumn_plus. apply sumn_ext. intros j Hj. rewrite Nabc by exact Hj. ring. }
    rewrite Ldz, Ldabc in Ep2, V2. rewrite Ep2 in X. cbn [bind] in X. apply zk_last in V2.
    clearbody tr7 rA rB rC. clear trC.
    unfold prove_quad in Ep2.
    destruct (zk_prove H quad_poly _ claim2 blind2 (Datatypes.S b) _ (rg1 g) (rg3 g) tr7 tape6) as [[[[[[pf2 r2] p2] b2] t2] tp2]| |] eqn:Ez2; try discriminate Ep2. cbn [bind] in Ep2.
    destruct (mapM _ p2) as [fin2| |]; try discriminate Ep2. cbn [bind] in Ep2. injection Ep2 as -> -> -> Ef2 -> -> ->. clear Ef2 fin2.
    apply (zk_prove_x _ _ (rg1 g) (rg3 g) 3 dl1 dl3 D1 D3 (fun e v p => quad_mk e v p two) ltac:(lia) G1 N1 G3 N3) in Ez2. cbn zeta in Ez2.
    set (bps2 := drawn H (repeat "blinds_poly"%string (Datatypes.S b)) tape6) in *. set (tapeC := after (repeat "blinds_poly"%string (Datatypes.S b)) tape6) in *.
    set (bes2 := drawn H (repeat "blinds_evals"%string (Datatypes.S b)) tapeC) in *. set (tapeD := after (repeat "blinds_evals"%string (Datatypes.S b)) tapeC) in *.
    destruct Ez2 as (cs2 & Lcs2 & R8 & Etp7 & Ery & Ebl2 & Lz2 & Ls2 & Esc2). set (zp2 := zpolys _ _ (Datatypes.S b) _ _ _) in *.
    rewrite Lry in X. change (Nat.leb 1 (Datatypes.S b)) with true in X. cbv iota in X.
    destruct ry' as [|ry0 ryt]; [discriminate|]. cbn [tl] in X. assert (Lryt : length ryt = b) by (cbn in Lry; lia).
    assert (Eev : dense_evaluate (MkDense b (2 ^ b) vars) ryt = Ok (mle vars ryt)).
    { pose proof (evaluate_ok K vars ryt) as Y. rewrite Lryt in Y. specialize (Y Lv). rewrite Ed in Y. exact Y. }
    rewrite Eev in X. cbn [bind] in X. unfold random_scalar at 1 in X. unfold challenge at 1 in X.
    match type of X with context [pe_prove H _ _ _ _ (Some ?x) _ tr8 ?t] => set (beval := x) in X; set (tape8 := t) in X end.
    assert (Etape8 : tape8 = after ["blind_eval"]%string tape7) by reflexivity. assert (Ebe : drawn H ["blind_eval"]%string tape7 = [beval]) by reflexivity. clearbody beval tape8.
    destruct (pe_prove H (MkDense b (2 ^ b) vars) (Some blinds) ryt (mle vars ryt) (Some beval) (rgpc g) tr8 tape8) as [[[[epf cry] tr9] tape9]| |] eqn:Epe; try discriminate X. cbn [bind idx nth_error of_opt] in X.
    assert (EhN : gh (dgN (rgpc g)) = gh (rg1 g)). { rewrite E1. unfold pcgens_new in Epc. rewrite dgens_new_ok in Epc. injection Epc as <-. reflexivity. }
    assert (DN : forall P, gmul (dl1 P) (gh (dgN (rgpc g))) = P) by (rewrite EhN; exact D1).
    pose proof (pe_x H vars ryt (rgpc g) stream dl1 blinds beval tr8 tape8 epf cry tr9 tape9) as Q. rewrite Lryt in Q. specialize (Q Lv Hb Epc DN Lbl Epe). cbn zeta in Q. fold rows in Q.
    destruct Q as (rr & us & cl & Lus & R9 & Etape9 & Ecry & Eepf).
    rewrite <- E1 in X.
    set (mz := mle z (ry0 :: ryt)) in *. set (mabc := mle abc (ry0 :: ryt)) in *.
    destruct (ep_prove H (rg1 g) tr9 tape9 _ _ _ _) as [[[[[eq2 d1] d2] tr10] tape10]| |] eqn:Ee2; try discriminate X. cbn [bind] in X.
    destruct (ep_x H (rg1 g) _ _ _ _ _ _ _ _ _ _ G1 N1 Ee2) as (ce2 & R10 & Etape10 & Ed1 & Ed2 & Eeq2).
    injection X as <- <- <- <- <-.
    exists [tau; cs1; [ck]; [cp]; [ce1]; [rA; rB; rC]; cs2; [rr]; us; [cl]; [ce2]].
    split. { unfold cs_lens. cbn [map length]. rewrite Lt, Lcs1, Lcs2, Lus. reflexivity. }
    split. { rewrite R10, R9, R8, R7, R6, R5, R4, R3, R2, R1. cbn [concat app]. rewrite <- !app_assoc. cbn [app]. rewrite <- ?app_assoc. reflexivity. }
    split. { clear - Etp2 Etape3 Etape4 Etape5 Etape6 Etp7 Etape8 Etape9 Etape10. rewrite after_concat. unfold nizk_requests. cbn [fold_left]. unfold tapeD, tapeC in Etp7. subst. reflexivity. }
    assert (EDR : drawns H (nizk_requests a b) tape = [blinds; bps1; bes1; drawn H (round_labels 4 a) tapeB; [bAz; bBz; bCz; bPr];
       drawn H ["t1"; "t2"]%string tape3; drawn H ["b1"; "b2"; "b3"; "b4"; "b5"]%string tape4; drawn H ["r"%string] tape5;
       bps2; bes2; drawn H (round_labels 3 (Datatypes.S b)) tapeD; [beval]; drawn H (lp_labels (b - b / 2)) tape8; drawn H ["r"%string] tape9]).
    { clear - Ebl Ebs Ebe Etp2 Etape3 Etape4 Etape5 Etape6 Etp7 Etape8 Etape9. rewrite <- Ebs, <- Ebe, Ebl. unfold bps2, bes2, tapeD, tapeC. subst. reflexivity. }
    rewrite EDR. clear EDR. unfold r1cs_sim, nz_steps. cbn [runs st_f sh lps nth app]. fold z. rewrite Ela, Elb, Elc. cbn [okl]. rewrite <- Erx, <- Ery. cbn [tl nth]. rewrite <- Eabc.
    fold Az Bz Cz tcl claim2 mabc zp1 zp2 rows. 
    rewrite (fixl_id (2 ^ (b / 2))) by (rewrite map_length; unfold rows; apply tab_length).
    rewrite !(fixl_id a) by (unfold poly_shift, eval_shift; rewrite map_length; exact Lz1).
    rewrite !(fixl_id (Datatypes.S b)) by (unfold poly_shift, eval_shift; rewrite map_length; exact Lz2).
    rewrite (fixl_id (a * 6)) by exact Ls1. rewrite (fixl_id (Datatypes.S b * 5)) by exact Ls2.
    rewrite (fixl_id 4), (fixl_id 2), (fixl_id 5), !(fixl_id 1) by reflexivity. cbn [map2 nth].
    fold blind2.
    destruct (gens_ok1 (rg1 g) G1 N1) as [g1 Hg1].
    assert (EP : forall v x, gmul (dl1 (gmul v (nth 0 (gG (rg1 g)) g0)) + x) (gh (rg1 g)) = ped1 (rg1 g) v x).
    { intros v x. rewrite (ped1_unfold _ g1 _ _ Hg1), Hg1. cbn [nth]. rewrite <- (D1 (gmul v g1)) at 2. module_red; ring. }
    rewrite !EP.
    assert (EP0 : map (fun x => gmul x (gh (rg1 g))) (map2 fadd (map (fun row => dl1 (lincomb row (gG (dgN (rgpc g))))) rows) blinds) = map2 (ped (dgN (rgpc g))) rows blinds).
    { rewrite <- EhN. apply ped_dl; [exact DN|]. rewrite Lbl. unfold rows. apply tab_length. }
    rewrite !EP0, <- EC0.
    assert (EC2 : gadd (gmul rA (ped1 (rg1 g) Az bAz)) (gadd (gmul rB (ped1 (rg1 g) Bz bBz)) (gmul rC (ped1 (rg1 g) Cz bCz))) = ped1 (rg1 g) claim2 blind2).
    { unfold claim2, blind2. rewrite !(ped1_unfold _ g1 _ _ Hg1). module_red; ring. }
    rewrite !EC2, <- Esc1, <- Esc2, V1. replace (Datatypes.S b - 1)%nat with b in V2 by lia. rewrite V2.
    cbn [map2] in Epok, Eprod, Eeq1, Eeq2. rewrite Ebl1 in *. replace (Datatypes.S b - 1)%nat with b in Ebl2 by lia. rewrite Ebl2 in *.
    rewrite <- EcA, <- EcB, <- EcC, <- EcP, <- Epok, <- Eprod. rewrite E1. rewrite <- Ecry. rewrite <- Eepf. rewrite <- E1.
    set (inp := mle (1 :: input ++ repeat 0 _) ryt).
    assert (Emz : mz = (1 - ry0) * mle vars ryt + ry0 * inp) by (unfold mz, z, full_z, inp; rewrite <- Lv; apply mle_app; rewrite Lryt; exact Lv).
    f_equal. f_equal. f_equal.
    - rewrite Eeq1. f_equal.
      + rewrite Ec1. f_equal. rewrite !(ped1_unfold _ g1 _ _ Hg1). module_red; ring.
      + rewrite Ec2. f_equal. f_equal. ring.
    - rewrite Eeq2. f_equal.
      + rewrite Ed1, Emz. f_equal. rewrite !(ped1_unfold _ g1 _ _ Hg1). module_red; ring.
      + rewrite Ed2. reflexivity.
  Qed.
End F.
