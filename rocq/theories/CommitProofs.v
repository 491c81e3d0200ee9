From Coq Require Import String List Arith Bool Lia Field.
From Verif Require Import Base ListAux Field Vec MathModel PolyModel PolySpec PolyProofs PolyImp CommitModel SigmaModel CommitSpec.
Import ListNotations.

Lemma idx_0 {A} (x : A) l : idx (x :: l) 0 = Ok x.
Proof. reflexivity. Qed.
Lemma idx_nth {A} (l : list A) i d : i < length l -> idx l i = Ok (nth i l d).
Proof. intro H. unfold idx. rewrite (nth_error_nth' l d H). reflexivity. Qed.

Section CP.
  Context {K : Fld} {G : Mod K} {E : Enc G}.
  Add Field Kcp : (fth K).
  Local Open Scope fld_scope.
  Implicit Types (vs ws : list K) (gs : list G).

  Lemma gsum_lincomb vs : forall gs, gsum (map2 gmul vs gs) = lincomb vs gs.
  Proof. induction vs as [|v vs IH]; intros [|g gs]; cbn [map2 gsum fold_right lincomb]; try reflexivity. f_equal. apply IH. Qed.
  Lemma msm_ok vs gs : length vs <= length gs -> msm vs gs = Ok (lincomb vs gs).
  Proof. intro L. unfold msm. apply Nat.leb_le in L. rewrite L. rewrite gsum_lincomb. reflexivity. Qed.
  Lemma msm_inv vs gs r : msm vs gs = Ok r -> length vs <= length gs /\ r = lincomb vs gs.
  Proof.
    unfold msm. destruct (Nat.leb_spec (length vs) (length gs)); [|discriminate].
    intro X. injection X as <-. split; [assumption|]. apply gsum_lincomb.
  Qed.
  Lemma lincomb_nil_r vs : lincomb vs ([] : list G) = g0.
  Proof. destruct vs; reflexivity. Qed.
  Lemma lincomb_app vs ws gs hs : length vs = length gs ->
    lincomb (vs ++ ws) (gs ++ hs) = gadd (lincomb vs gs) (lincomb ws hs).
  Proof.
    revert gs. induction vs as [|v vs IH]; intros [|g gs] L; try discriminate L; cbn [app lincomb].
    - module_red; ring.
    - injection L as L. rewrite (IH gs L). module_red; ring.
  Qed.
  Lemma lincomb_scale c vs : forall gs, lincomb (map (fmul c) vs) gs = gmul c (lincomb vs gs).
  Proof.
    induction vs as [|v vs IH]; intros [|g gs]; cbn [map lincomb]; try (module_red; ring).
    rewrite IH. module_red; ring.
  Qed.
  Lemma lincomb_vadd vs : forall ws gs, length vs = length ws ->
    lincomb (vadd vs ws) gs = gadd (lincomb vs gs) (lincomb ws gs).
  Proof.
    induction vs as [|v vs IH]; intros [|w ws] gs L; try discriminate L.
    - cbn [vadd map2 lincomb]. module_red; ring.
    - injection L as L. destruct gs as [|g gs]; cbn [vadd map2 lincomb]; [module_red; ring|].
      change (map2 fadd vs ws) with (vadd vs ws). rewrite (IH ws gs L). module_red; ring.
  Qed.
  Lemma lincomb_sub vs : forall ws gs, length vs = length ws ->
    lincomb (map2 fsub vs ws) gs = gadd (lincomb vs gs) (gopp (lincomb ws gs)).
  Proof.
    induction vs as [|v vs IH]; intros [|w ws] gs L; try discriminate L.
    - cbn [vadd map2 lincomb]. module_red; ring.
    - injection L as L. destruct gs as [|g gs]; cbn [map2 lincomb]; [module_red; ring|].
      rewrite (IH ws gs L). module_red; ring.
  Qed.
  Lemma lincomb_repeat0 k : forall gs, lincomb (repeat 0 k) gs = g0.
  Proof. induction k as [|k IH]; intros [|g gs]; cbn [repeat lincomb]; try reflexivity. rewrite IH. module_red; ring. Qed.
  Lemma lincomb_g0 k : forall vs, lincomb vs (repeat (g0 : G) k) = g0.
  Proof. induction k as [|k IH]; intros [|v vs]; cbn [repeat lincomb]; try reflexivity. rewrite IH. module_red; ring. Qed.
  Lemma lincomb_firstn vs : forall gs, lincomb vs (firstn (length vs) gs) = lincomb vs gs.
  Proof. induction vs as [|v vs IH]; intros [|g gs]; cbn [length firstn lincomb]; try reflexivity. now rewrite IH. Qed.
  Lemma lincomb_self vs : forall ws, lincomb (G:=self_mod K) vs ws = dot vs ws.
  Proof.
    induction vs as [|v vs IH]; intros [|w ws]; cbn [lincomb]; try reflexivity.
    rewrite (dot_cons K). rewrite IH. reflexivity.
  Qed.

  Lemma unpack_comp (g : G) : unpack (E:=E) (compress E g) = Ok g.
  Proof. unfold unpack. rewrite dec_comp. reflexivity. Qed.
  Lemma unpack_some (e : E) g : decompress E e = Some g -> unpack e = Ok g.
  Proof. intro X. unfold unpack. rewrite X. reflexivity. Qed.
  Lemma unpack_inv (e : E) g : unpack e = Ok g -> decompress E e = Some g.
  Proof. unfold unpack. destruct (decompress E e); intro X; [injection X as <-; reflexivity|discriminate]. Qed.
  Lemma eeqb_refl (e : E) : eeqb E e e = true.
  Proof. destruct (eeqb_spec _ E e e); congruence. Qed.
  Lemma eeqb_comp (a b : G) : eeqb E (compress E a) (compress E b) = true -> a = b.
  Proof.
    destruct (eeqb_spec _ E (compress E a) (compress E b)) as [X|]; [|discriminate]. intros _.
    apply (f_equal (decompress E)) in X. rewrite !dec_comp in X. now injection X.
  Qed.
  Lemma eeqb_comp_eq (a b : G) : a = b -> eeqb E (compress E a) (compress E b) = true.
  Proof. intros ->. apply eeqb_refl. Qed.

  Lemma commit1_ok x r (g : gens G) : gens_ok g -> gn g = 1%nat -> commit1 x r g = Ok (ped1 g x r).
  Proof.
    unfold gens_ok, commit1, ped1, ped. intros L N. rewrite N in L. rewrite N. cbn [Nat.eqb bind].
    destruct (gG g) as [|b [|]]; try discriminate L. rewrite idx_0. cbn [bind].
    rewrite msm_ok by (cbn; lia). f_equal. cbn [lincomb]. module_red; ring.
  Qed.
  (** what a successful [commit1] gives, without knowing the generator set *)
  Lemma commit1_inv x r (g : gens G) c : commit1 x r g = Ok c ->
    gn g = 1%nat /\ exists b rest, gG g = b :: rest /\ c = gadd (gmul x b) (gmul r (gh g)).
  Proof.
    unfold commit1. destruct (Nat.eqb_spec (gn g) 1); [|discriminate].
    destruct (gG g) as [|b rest] eqn:Eg; [discriminate|]. rewrite idx_0. cbn [bind].
    rewrite msm_ok by (cbn; lia). intro X. injection X as <-. split; [assumption|].
    exists b, rest. split; [reflexivity|]. cbn [lincomb]. module_red; ring.
  Qed.
  Lemma commit_ok v r (g : gens G) : gens_ok g -> length v = gn g -> commit v r g = Ok (ped g v r).
  Proof.
    unfold gens_ok, commit, ped. intros L N. rewrite N, Nat.eqb_refl.
    rewrite msm_ok by lia. reflexivity.
  Qed.
  Lemma commit_inv v r (g : gens G) c : commit v r g = Ok c -> length v = gn g /\ c = ped g v r.
  Proof.
    unfold commit. destruct (Nat.eqb_spec (gn g) (length v)); [|discriminate].
    destruct (msm v (gG g)) as [s| |] eqn:Em; try discriminate. apply msm_inv in Em. destruct Em as [_ ->].
    intro X. injection X as <-. split; [congruence|reflexivity].
  Qed.
  Lemma ped1_unfold (g : gens G) b x r : gG g = [b] -> ped1 g x r = gadd (gmul x b) (gmul r (gh g)).
  Proof. intro X. unfold ped1, ped. rewrite X. cbn [lincomb]. module_red; ring. Qed.
  Lemma gens_ok1 (g : gens G) : gens_ok g -> gn g = 1%nat -> exists b, gG g = [b].
  Proof. unfold gens_ok. intros L N. rewrite N in L. destruct (gG g) as [|b [|]]; try discriminate L. now exists b. Qed.

  (** generator sets *)
  Lemma gens_new_G n stream : gens_new (G:=G) n stream = MkGens n (tab n stream) (stream n).
  Proof.
    unfold gens_new. rewrite (firstn_tab n (n+1) stream) by lia.
    rewrite (nth_tab (n+1) stream n g0) by lia. reflexivity.
  Qed.
  Lemma gens_scale_ok (g : gens G) s : gens_ok g -> gens_scale g s = Ok (MkGens (gn g) (map (gmul s) (gG g)) (gh g)).
  Proof.
    unfold gens_ok, gens_scale. intro L.
    rewrite (mapM_ok _ (fun i => gmul s (nth i (gG g) g0))).
    - cbn [bind]. rewrite <- L. change (map (fun i => gmul s (nth i (gG g) g0)) (seq 0 (length (gG g)))) with
        (tab (length (gG g)) (fun i => gmul s (nth i (gG g) g0))).
      rewrite <- (map_tab (gmul s) _ (fun i => nth i (gG g) g0)). rewrite (tab_nth (gG g) g0). reflexivity.
    - intros i Hi. apply in_seq in Hi. rewrite (idx_nth (gG g) i g0) by lia. reflexivity.
  Qed.
  Lemma gens_split_ok (g : gens G) mid : mid <= length (gG g) ->
    gens_split g mid = Ok (MkGens mid (firstn mid (gG g)) (gh g), MkGens (length (gG g) - mid) (skipn mid (gG g)) (gh g)).
  Proof.
    intro L. unfold gens_split. pose proof (proj2 (Nat.leb_le _ _) L) as L2. rewrite L2.
    rewrite firstn_length_le by lia. rewrite skipn_length. reflexivity.
  Qed.
  Lemma dgens_new_ok n stream : dgens_new (G:=G) n stream =
    Ok (MkDGens n (MkGens n (tab n stream) (stream (n + 1)%nat)) (MkGens 1 [stream n] (stream (n + 1)%nat))).
  Proof.
    unfold dgens_new. rewrite gens_new_G. rewrite gens_split_ok by (cbn [gG]; rewrite tab_length; lia).
    cbn [bind fst snd gG gh]. rewrite tab_length. rewrite firstn_tab by lia. rewrite skipn_tab by lia.
    replace (n + 1 - n)%nat with 1%nat by lia. do 4 f_equal.
    cbn. now rewrite Nat.add_0_r.
  Qed.

  Lemma challenges_length (H : log E -> K) l n : forall tr, length (fst (challenges H l n tr)) = n.
  Proof.
    induction n as [|n IH]; intro tr; [reflexivity|]. cbn [challenges challenge].
    specialize (IH (MChal l :: tr)). destruct (challenges H l n (MChal l :: tr)). cbn [fst length] in *. now rewrite IH.
  Qed.
End CP.
