From Coq Require Import String List Arith Bool Lia Field.
From Verif Require Import Base ListAux Field Vec MathModel PolyModel CommitModel SigmaModel CommitSpec CommitProofs SigmaProofs ZkSpec.
Import ListNotations.

Section Z.
  Context {K : Fld} {G : Mod K} {E : Enc G}.
  Add Field Kzk : (fth K).
  Local Open Scope fld_scope.
  Ltac run := cbn [bind fst snd challenge random_scalar random_vector].
  Local Notation cmp := (compress E).

  Lemma permutes_shift n (s : list K) : length s = n -> permutes n (map2 fadd s).
  Proof.
    intro L. exists (map2 (fun a b => b - a) s). intros l Hl. rewrite !map2_length, L, Hl, Nat.min_id. split; [reflexivity|]. split; [reflexivity|].
    assert (E1 : forall s l : list K, length s = length l -> map2 (fun a b => b - a) s (map2 fadd s l) = l /\ map2 fadd s (map2 (fun a b => b - a) s l) = l).
    { clear. induction s as [|x s IH]; intros [|y l] L; try discriminate L; [split; reflexivity|]. injection L as L. destruct (IH l L) as [A B]. cbn [map2]. split; f_equal; try assumption; ring. }
    apply E1. congruence.
  Qed.
  Definition pt (e : E) : G := match decompress E e with Some P => P | None => g0 end.
  Lemma pt_cmp P : pt (cmp P) = P. Proof. unfold pt. rewrite dec_comp. reflexivity. Qed.
  Lemma tail_reply (a : list K) b c : a ++ [b] = a ++ [c] -> b = c.
  Proof. intro X. apply app_inv_head in X. congruence. Qed.

  (** the tape after requests with these labels *)
  Definition after (ls : list string) (tape : log E) : log E := rev (map (@MChal K G E) ls) ++ tape.
  Lemma after_app l1 l2 tape : after (l1 ++ l2) tape = after l2 (after l1 tape).
  Proof. unfold after. rewrite map_app, rev_app_distr, <- app_assoc. reflexivity. Qed.

  (** ** knowledge *)
  Definition kp_sim (g : gens G) (C : E) (c : K) (l : list K) : kproof E :=
    let z1 := nth 0 l 0 in let z2 := nth 1 l 0 in MkKP (cmp (gadd (ped1 g z1 z2) (gopp (gmul c (pt C))))) z1 z2.
  Lemma kp_x H (g : gens G) x r tr tape pf C tr' tape' : gens_ok g -> gn g = 1%nat -> kp_prove H g tr tape x r = Ok (pf, C, tr', tape') ->
    exists c, replies H tr' = replies H tr ++ [c] /\ tape' = after ["t1"; "t2"]%string tape /\ C = cmp (ped1 g x r) /\
      pf = kp_sim g C c (map2 fadd [x * c; r * c] (drawn H ["t1"; "t2"]%string tape)).
  Proof.
    intros Hg N X. unfold kp_prove, random_scalar, challenge in X. rewrite !(commit1_ok _ _ g Hg N) in X. cbn [bind] in X.
    injection X as <- <- <- <-. cbn [replies app_point proto]. eexists. split; [reflexivity|]. split; [reflexivity|]. split; [reflexivity|].
    match goal with |- context [kp_sim g _ ?c0] => set (c := c0) end.
    cbn [drawn map2]. unfold kp_sim. cbn [nth]. rewrite pt_cmp. destruct (gens_ok1 g Hg N) as [b Hb].
    f_equal. f_equal. rewrite !(ped1_unfold g b _ _ Hb). module_red; ring.
  Qed.
  Lemma kp_zk (g : gens G) : gens_ok g -> gn g = 1%nat -> exists sim : E -> K -> list K -> kproof E, forall x r c, exists pad, permutes 2 pad /\
    forall H tr tape pf C tr' tape', kp_prove H g tr tape x r = Ok (pf, C, tr', tape') -> replies H tr' = replies H tr ++ [c] ->
      pf = sim C c (pad (drawn H ["t1"; "t2"]%string tape)).
  Proof.
    intros Hg N. exists (kp_sim g). intros x r c. exists (map2 fadd [x * c; r * c]). split; [apply permutes_shift; reflexivity|].
    intros H tr tape pf C tr' tape' X R. destruct (kp_x H g x r tr tape pf C tr' tape' Hg N X) as (c' & R' & _ & _ & ->). rewrite R in R'. apply tail_reply in R'. now subst c'.
  Qed.

  (** ** equality *)
  Definition ep_sim (g : gens G) (C1 C2 : E) (c : K) (l : list K) : eproof E :=
    let z := nth 0 l 0 in MkEP (cmp (gadd (gmul z (gh g)) (gopp (gmul c (gadd (pt C1) (gopp (pt C2))))))) z.
  Lemma ep_x H (g : gens G) v s1 s2 tr tape pf C1 C2 tr' tape' : gens_ok g -> gn g = 1%nat -> ep_prove H g tr tape v s1 v s2 = Ok (pf, C1, C2, tr', tape') ->
    exists c, replies H tr' = replies H tr ++ [c] /\ tape' = after ["r"]%string tape /\ C1 = cmp (ped1 g v s1) /\ C2 = cmp (ped1 g v s2) /\
      pf = ep_sim g C1 C2 c (map2 fadd [c * (s1 - s2)] (drawn H ["r"]%string tape)).
  Proof.
    intros Hg N X. unfold ep_prove, random_scalar, challenge in X. rewrite !(commit1_ok _ _ g Hg N) in X. cbn [bind] in X.
    injection X as <- <- <- <- <-. cbn [replies app_point proto]. eexists. do 4 (split; [reflexivity|]).
    match goal with |- context [ep_sim g _ _ ?c0] => set (c := c0) end.
    cbn [drawn map2]. unfold ep_sim. cbn [nth]. rewrite !pt_cmp. destruct (gens_ok1 g Hg N) as [b Hb].
    f_equal. f_equal. rewrite !(ped1_unfold g b _ _ Hb). module_red; ring.
  Qed.
  Lemma ep_zk (g : gens G) : gens_ok g -> gn g = 1%nat -> exists sim : E -> E -> K -> list K -> eproof E, forall v s1 s2 c, exists pad, permutes 1 pad /\
    forall H tr tape pf C1 C2 tr' tape', ep_prove H g tr tape v s1 v s2 = Ok (pf, C1, C2, tr', tape') -> replies H tr' = replies H tr ++ [c] ->
      pf = sim C1 C2 c (pad (drawn H ["r"]%string tape)).
  Proof.
    intros Hg N. exists (ep_sim g). intros v s1 s2 c. exists (map2 fadd [c * (s1 - s2)]). split; [apply permutes_shift; reflexivity|].
    intros H tr tape pf C1 C2 tr' tape' X R. destruct (ep_x H g v s1 s2 tr tape pf C1 C2 tr' tape' Hg N X) as (c' & R' & _ & _ & _ & ->). rewrite R in R'. apply tail_reply in R'. now subst c'.
  Qed.

  (** ** product *)
  Definition pp_sim (g : gens G) (X Y Z : E) (c : K) (l : list K) : pproof E :=
    let z1 := nth 0 l 0 in let z2 := nth 1 l 0 in let z3 := nth 2 l 0 in let z4 := nth 3 l 0 in let z5 := nth 4 l 0 in
    MkPP (cmp (gadd (ped1 g z1 z2) (gopp (gmul c (pt X))))) (cmp (gadd (ped1 g z3 z4) (gopp (gmul c (pt Y)))))
      (cmp (gadd (ped1 (MkGens 1 [pt X] (gh g)) z3 z5) (gopp (gmul c (pt Z))))) (z1, z2, z3, z4, z5).
  Lemma pp_x H (g : gens G) x rX y rY rZ tr tape pf X Y Z tr' tape' : gens_ok g -> gn g = 1%nat ->
    pp_prove H g tr tape x rX y rY (x * y) rZ = Ok (pf, X, Y, Z, tr', tape') ->
    exists c, replies H tr' = replies H tr ++ [c] /\ tape' = after ["b1"; "b2"; "b3"; "b4"; "b5"]%string tape /\
      X = cmp (ped1 g x rX) /\ Y = cmp (ped1 g y rY) /\ Z = cmp (ped1 g (x * y) rZ) /\
      pf = pp_sim g X Y Z c (map2 fadd [c * x; c * rX; c * y; c * rY; c * (rZ - rX * y)] (drawn H ["b1"; "b2"; "b3"; "b4"; "b5"]%string tape)).
  Proof.
    intros Hg N W. unfold pp_prove, random_scalar, challenge in W. rewrite !(commit1_ok _ _ g Hg N) in W. cbn [bind] in W. rewrite !unpack_comp in W. cbn [bind] in W.
    set (gX := MkGens 1 [ped1 g x rX] (gh g)) in W. assert (HgX : gens_ok gX) by reflexivity.
    rewrite (commit1_ok _ _ gX HgX eq_refl) in W. cbn [bind] in W.
    injection W as <- <- <- <- <- <-. cbn [replies app_point proto]. eexists. do 5 (split; [reflexivity|]).
    match goal with |- context [pp_sim g _ _ _ ?c0] => set (c := c0) end.
    cbn [drawn map2]. unfold pp_sim. cbn [nth]. rewrite !pt_cmp. fold gX. destruct (gens_ok1 g Hg N) as [b Hb].
    f_equal.
    - f_equal. rewrite !(ped1_unfold g b _ _ Hb). module_red; ring.
    - f_equal. rewrite !(ped1_unfold g b _ _ Hb). module_red; ring.
    - f_equal. rewrite !(ped1_unfold gX _ _ _ eq_refl). cbn [gh gX]. rewrite !(ped1_unfold g b _ _ Hb). module_red; ring.
    - repeat match goal with |- (_, _) = (_, _) => f_equal end; ring.
  Qed.
  Lemma pp_zk (g : gens G) : gens_ok g -> gn g = 1%nat -> exists sim : E -> E -> E -> K -> list K -> pproof E, forall x rX y rY rZ c, exists pad, permutes 5 pad /\
    forall H tr tape pf X Y Z tr' tape', pp_prove H g tr tape x rX y rY (x * y) rZ = Ok (pf, X, Y, Z, tr', tape') -> replies H tr' = replies H tr ++ [c] ->
      pf = sim X Y Z c (pad (drawn H ["b1"; "b2"; "b3"; "b4"; "b5"]%string tape)).
  Proof.
    intros Hg N. exists (pp_sim g). intros x rX y rY rZ c. exists (map2 fadd [c * x; c * rX; c * y; c * rY; c * (rZ - rX * y)]). split; [apply permutes_shift; reflexivity|].
    intros H tr tape pf X Y Z tr' tape' W R. destruct (pp_x H g _ _ _ _ _ tr tape pf X Y Z tr' tape' Hg N W) as (c' & R' & _ & _ & _ & _ & ->). rewrite R in R'. apply tail_reply in R'. now subst c'.
  Qed.

  (** ** dot product *)
  Lemma drawn_app H ls : forall ls' (tape : log E), drawn H (ls ++ ls') tape = drawn H ls tape ++ drawn H ls' (rev (map (@MChal K G E) ls) ++ tape).
  Proof. induction ls as [|l ls IH]; intros; [reflexivity|]. cbn [app drawn map rev]. rewrite IH, <- app_assoc. reflexivity. Qed.
  Lemma challenges_drawn H s n : forall tape : log E, challenges H s n tape = (drawn H (repeat s n) tape, rev (map (@MChal K G E) (repeat s n)) ++ tape).
  Proof.
    induction n as [|n IH]; intro tape; [reflexivity|]. cbn [challenges challenge repeat drawn map rev]. rewrite IH, <- app_assoc. reflexivity.
  Qed.
  Lemma drawn_length H ls : forall tape : log E, length (drawn H ls tape) = length ls.
  Proof. induction ls; intro; cbn [drawn length]; [reflexivity|]. now rewrite IHls. Qed.
  Lemma replies_scalars H s xs (tr : log E) : replies H (app_scalars s xs tr) = replies H tr.
  Proof.
    unfold app_scalars. cbn [replies].
    assert (Q : forall ys (t : log E), replies H (map (MScalar s) ys ++ t) = replies H t).
    { intros ys t. induction ys as [|y ys IH]; [reflexivity|exact IH]. }
    rewrite <- map_rev, Q. reflexivity.
  Qed.
  Definition dp_sim (g1 gN : gens G) (a : list K) (Cx Cy : E) (c : K) (l : list K) : dproof E :=
    let n := length a in let z := firstn n l in let zd := nth n l 0 in let zb := nth (S n) l 0 in
    MkDP (cmp (gadd (ped gN z zd) (gopp (gmul c (pt Cx))))) (cmp (gadd (ped1 g1 (dot z a) zb) (gopp (gmul c (pt Cy))))) z zd zb.
  Definition dp_labels (n : nat) : list string := repeat "d_vec"%string n ++ ["r_delta"; "r_beta"]%string.
  Lemma dp_x H (g1 gN : gens G) (a : list K) x bx by_ tr tape pf Cx Cy tr' tape' : gens_ok g1 -> gn g1 = 1%nat -> gens_ok gN ->
    dp_prove H g1 gN tr tape x bx a (dot x a) by_ = Ok (pf, Cx, Cy, tr', tape') ->
    exists c, replies H tr' = replies H tr ++ [c] /\ tape' = after (dp_labels (length x)) tape /\ Cx = cmp (ped gN x bx) /\ Cy = cmp (ped1 g1 (dot x a) by_) /\
      pf = dp_sim g1 gN a Cx Cy c (map2 fadd (map (fmul c) x ++ [c * bx; c * by_]) (drawn H (dp_labels (length x)) tape)).
  Proof.
    intros H1 N1 HN W. destruct (gens_ok1 g1 H1 N1) as [b Hb]. unfold dp_prove in W. unfold dp_labels.
    destruct (Nat.eqb_spec (length x) (length a)) as [La|]; [|discriminate W]. destruct (Nat.eqb_spec (gn gN) (length a)) as [NN|]; [|discriminate W]. rewrite N1 in W. cbn [Nat.eqb] in W.
    unfold random_vector, random_scalar, challenge in W. rewrite challenges_drawn in W. rewrite drawn_app.
    set (d := drawn H (repeat "d_vec"%string (length x)) tape) in *. assert (Ld : length d = length x) by (unfold d; rewrite drawn_length, repeat_length; reflexivity).
    set (tape1 := rev (map MChal (repeat "d_vec"%string (length x))) ++ tape) in *. cbn [drawn].
    rewrite !(commit_ok _ _ gN) in W by (assumption || congruence). unfold compute_dotproduct in W. rewrite Ld, La, Nat.eqb_refl in W. cbn [bind] in W.
    rewrite !(commit1_ok _ _ g1 H1 N1) in W. cbn [bind] in W.
    injection W as <- <- <- <- <-. cbn [replies app_point]. rewrite replies_scalars. cbn [replies app_point proto]. eexists. split; [reflexivity|].
    split; [rewrite after_app; reflexivity|]. do 2 (split; [reflexivity|]).
    match goal with |- context [dp_sim g1 gN a _ _ ?c0] => set (c := c0) end. clearbody c.
    assert (Ez : map2 fadd (map (fmul c) x ++ [c * bx; c * by_]) (d ++ [H (MChal "r_delta" :: tape1); H (MChal "r_beta" :: MChal "r_delta" :: tape1)]) =
                 map2 (fun x d => c * x + d) x d ++ [c * bx + H (MChal "r_delta" :: tape1); c * by_ + H (MChal "r_beta" :: MChal "r_delta" :: tape1)]).
    { clearbody d tape1. clear -Ld. revert d Ld. induction x as [|x0 x IH]; intros [|d0 d] L; try discriminate L; [reflexivity|]. injection L as L. cbn [map app map2]. rewrite (IH d L). reflexivity. }
    rewrite Ez. clear Ez. assert (Lz : length (map2 (fun x d => c * x + d) x d) = length a) by (rewrite map2_length, Ld; lia).
    unfold dp_sim. set (z := map2 (fun x d => c * x + d) x d) in *. rewrite <- Lz, firstn_app, Nat.sub_diag, firstn_all. cbn [firstn]. rewrite app_nil_r.
    rewrite !app_nth2 by lia. rewrite Nat.sub_diag, Nat.sub_succ_l, Nat.sub_diag by lia. cbn [nth]. unfold z.
    rewrite !pt_cmp. f_equal.
    - f_equal. unfold ped. rewrite (lin_comb_zip _ x d (gG gN) Ld). module_red; ring.
    - f_equal. rewrite !(ped1_unfold g1 b _ _ Hb). rewrite (dot_zip _ x d a Ld). rewrite (dot_comm K a d). module_red; ring.
  Qed.
  Lemma dp_zk (g1 gN : gens G) (a : list K) : gens_ok g1 -> gn g1 = 1%nat -> gens_ok gN ->
    exists sim : E -> E -> K -> list K -> dproof E, forall x bx by_ c, exists pad, permutes (length x + 2) pad /\
    forall H tr tape pf Cx Cy tr' tape', dp_prove H g1 gN tr tape x bx a (dot x a) by_ = Ok (pf, Cx, Cy, tr', tape') -> replies H tr' = replies H tr ++ [c] ->
      pf = sim Cx Cy c (pad (drawn H (repeat "d_vec"%string (length x) ++ ["r_delta"; "r_beta"]%string) tape)).
  Proof.
    intros H1 N1 HN. exists (dp_sim g1 gN a). intros x bx by_ c. exists (map2 fadd (map (fmul c) x ++ [c * bx; c * by_])).
    split; [apply permutes_shift; rewrite app_length, map_length; reflexivity|].
    intros H tr tape pf Cx Cy tr' tape' W R. destruct (dp_x H g1 gN a x bx by_ tr tape pf Cx Cy tr' tape' H1 N1 HN W) as (c' & R' & _ & _ & _ & ->). rewrite R in R'. apply tail_reply in R'. now subst c'.
  Qed.
End Z.
