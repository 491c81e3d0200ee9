(** Product circuits: soundness of the batched evaluation proof. *)
From Coq Require Import String List Arith Lia Bool Field Ring.
From Verif Require Import Base ListAux Field Vec MathModel PolyModel PolySpec PolyProofs PolyImp CommitModel SigmaModel CommitProofs SumModel SumSpec SumProofs SumComplete SumApi ProdModel ProdSpec ProdProofs ProdBatch ProdSound.
Import ListNotations.

Lemma mapM_inv {A B} (f : A -> res B) l : forall vs, mapM f l = Ok vs ->
  length vs = length l /\ forall i a, nth_error l i = Some a -> exists b, nth_error vs i = Some b /\ f a = Ok b.
Proof.
  induction l as [|a l IH]; intros vs X; cbn [mapM] in X.
  - injection X as <-. split; [reflexivity|]. intros [|i] a; discriminate.
  - destruct (f a) as [b| |] eqn:Ef; cbn [bind] in X; try discriminate. destruct (mapM f l) as [bs| |]; cbn [bind] in X; try discriminate.
    injection X as <-. destruct (IH bs eq_refl) as [L P]. split; [cbn; congruence|]. intros [|i] c; cbn; intro Hc; [injection Hc as <-; exists b; auto|apply P, Hc].
Qed.
Lemma nth_error_seq n i : (i < n)%nat -> nth_error (seq 0 n) i = Some i.
Proof. intro Hi. rewrite (nth_error_nth' _ 0%nat) by (rewrite seq_length; exact Hi). rewrite seq_nth by exact Hi. reflexivity. Qed.
Lemma idx_inv {A} (l : list A) i a d : idx l i = Ok a -> (i < length l)%nat /\ a = nth i l d.
Proof.
  unfold idx, of_opt. destruct (nth_error l i) eqn:En; [|discriminate]. intro X. injection X as ->.
  split; [apply nth_error_Some; congruence|]. symmetry. apply nth_error_nth. exact En.
Qed.

Lemma app_inj_len {A} (a : list A) : forall b c d, length a = length c -> a ++ b = c ++ d -> a = c /\ b = d.
Proof.
  induction a as [|x a IH]; intros b [|y c] d L X; try discriminate; [split; [reflexivity|exact X]|]. cbn in X, L. injection X as -> X.
  destruct (IH b c d ltac:(lia) X) as [-> ->]. split; reflexivity.
Qed.

Section SoundB.
  Context {K : Fld} {G : Mod K} {E : Enc G}.
  Local Open Scope fld_scope.
  Variable H : log E -> K.
  Add Field Kpr : (fth K).

  Lemma challenges_eq l m : forall tr : log E, challenges H l m tr = (map (fun k => H (repeat (MChal l) (S k) ++ tr)) (seq 0 m), repeat (MChal l) m ++ tr).
  Proof.
    assert (RC : forall k (tr : log E), repeat (MChal l) k ++ MChal l :: tr = repeat (MChal l) (S k) ++ tr).
    { induction k; intro tr; [reflexivity|]. cbn [repeat app]. rewrite IHk. reflexivity. }
    induction m; intro tr; [reflexivity|]. cbn [challenges]. unfold challenge. rewrite IHm. cbn [seq map]. rewrite <- seq_shift, map_map.
    rewrite RC. f_equal. f_equal. apply map_ext. intro k. cbn [repeat app]. rewrite RC. reflexivity.
  Qed.
  Lemma app_claims_eq ls rs : forall tr : log E, app_claims ls rs tr =
    rev (flat_map (fun '(a, b) => [MScalar "claim_prod_left" a; MScalar "claim_prod_right" b]) (combine ls rs)) ++ tr.
  Proof.
    unfold app_claims. induction (combine ls rs) as [|[a b] l IH]; intro tr; [reflexivity|].
    cbn [fold_left flat_map app rev]. rewrite IH, <- !app_assoc. reflexivity.
  Qed.
  Lemma app_dotp_eq ls rs ws : forall tr : log E, app_dotp ls rs ws tr =
    rev (flat_map (fun '(a, b, c) => [MScalar "claim_dotp_left" a; MScalar "claim_dotp_right" b; MScalar "claim_dotp_weight" c]) (combine (combine ls rs) ws)) ++ tr.
  Proof.
    unfold app_dotp. induction (combine (combine ls rs) ws) as [|[[a b] c] l IH]; intro tr; [reflexivity|].
    cbn [fold_left flat_map app rev]. rewrite IH, <- !app_assoc. reflexivity.
  Qed.

  Lemma deg_ext d n (f g : list K -> K) : (forall b, f b = g b) -> deg_each d n f -> deg_each d n g.
  Proof. intros X D pre post L. destruct (D pre post L) as (cs & Lc & Ec). exists cs. split; [exact Lc|]. intro x. rewrite <- X. apply Ec. Qed.
  Lemma deg_dot d n (fs : list (list K -> K)) : forall coeffs, (forall f, In f fs -> deg_each d n f) -> deg_each d n (fun b => dot (map (fun f => f b) fs) coeffs).
  Proof.
    induction fs as [|f fs IH]; intros [|c cs] D.
    - apply deg_zero.
    - apply deg_zero.
    - apply (deg_ext d n (fun _ => 0)); [intro b; rewrite dot_nil_r; reflexivity|apply deg_zero].
    - apply (deg_ext d n (fun b => c * f b + dot (map (fun f => f b) fs) cs)); [intro b; cbn [map]; rewrite dot_cons; ring|].
      apply deg_comb; [apply D; left; reflexivity|apply IH; intros; apply D; right; assumption].
  Qed.
  Lemma hsum_dot n (fs : list (list K -> K)) : forall coeffs, hsum n (fun b => dot (map (fun f => f b) fs) coeffs) = dot (map (hsum n) fs) coeffs.
  Proof.
    induction fs as [|f fs IH]; intros [|c cs].
    - apply hsum_zero.
    - apply hsum_zero.
    - rewrite (hsum_ext n _ (fun _ => 0)) by (intros; apply dot_nil_r). rewrite hsum_zero, dot_nil_r. reflexivity.
    - cbn [map]. rewrite dot_cons, <- IH. rewrite (hsum_ext n _ (fun b => c * f b + dot (map (fun f => f b) fs) cs)) by (intros; rewrite dot_cons; ring).
      rewrite hsum_comb. ring.
  Qed.

  Lemma meet_or x r (Vs : list (list K)) : forall left right, length left = length Vs -> length right = length Vs ->
    condense x left right = map (fun V => mle (lo V) r + x * (mle (hi V) r - mle (lo V) r)) Vs ->
    (left = map (fun V => mle (lo V) r) Vs /\ right = map (fun V => mle (hi V) r) Vs) \/
    exists j, (j < length Vs)%nat /\ let V := nth j Vs [] in meet (nth j left 0) (nth j right 0) (mle (lo V) r) (mle (hi V) r) x.
  Proof.
    induction Vs as [|V Vs IH]; intros [|a left] [|b right] La Lb X; try discriminate.
    - left. split; reflexivity.
    - cbn [condense map2 map] in X. unfold condense in X. cbn [map2] in X. injection X as X0 X. cbn [length] in La, Lb.
      destruct (IH left right ltac:(lia) ltac:(lia) X) as [[-> ->]|(j & Hj & M)].
      + destruct (feqb_spec K a (mle (lo V) r)) as [->|Na]; [destruct (feqb_spec K b (mle (hi V) r)) as [->|Nb]|].
        * left. split; reflexivity.
        * right. exists 0%nat. split; [cbn; lia|]. split; [right; exact Nb|exact X0].
        * right. exists 0%nat. split; [cbn; lia|]. split; [left; exact Na|exact X0].
      + right. exists (S j). split; [cbn; lia|exact M].
  Qed.

  (** what the dot-product part of the last layer establishes *)
  Lemma dotp_expected_inv (coeffs : list K) np dl dr dw v : dotp_expected coeffs np (dl, dr, dw) = Ok v ->
    (length dl = 0 \/ length dl + np <= length coeffs)%nat /\
    v = sumn (length dl) (fun i => nth (i + np) coeffs 0 * nth i dl 0 * nth i dr 0 * nth i dw 0).
  Proof.
    unfold dotp_expected. destruct (mapM _ _) as [vs| |] eqn:EM; cbn [bind]; try discriminate. intro X. injection X as <-.
    destruct (mapM_inv _ _ _ EM) as [L P]. rewrite seq_length in L.
    assert (Q : forall i, (i < length dl)%nat -> (i + np < length coeffs)%nat /\ nth i vs 0 = nth (i + np) coeffs 0 * nth i dl 0 * nth i dr 0 * nth i dw 0).
    { intros i Hi. destruct (P i i (nth_error_seq _ _ Hi)) as (b & Nb & Eb).
      destruct (idx dl i) as [a1| |] eqn:I1; try discriminate. destruct (idx dr i) as [a2| |] eqn:I2; try discriminate.
      destruct (idx dw i) as [a3| |] eqn:I3; try discriminate. destruct (idx coeffs (i + np)) as [c| |] eqn:I4; try discriminate.
      cbn [bind] in Eb. injection Eb as <-. apply (idx_inv _ _ _ 0) in I1, I2, I3, I4. destruct I1 as [_ ->], I2 as [_ ->], I3 as [_ ->], I4 as [I4 ->].
      split; [exact I4|]. apply nth_error_nth. exact Nb. }
    split.
    - destruct (length dl) as [|k] eqn:El; [left; reflexivity|right]. destruct (Q k ltac:(lia)) as [Q1 _]. lia.
    - unfold sumn. f_equal. apply (list_ext _ _ 0); [unfold tab; rewrite map_length, seq_length; exact L|].
      rewrite L. intros i Hi. rewrite nth_tab by exact Hi. apply Q. exact Hi.
  Qed.
  Lemma concat3 {A} : forall u v : list (list A), length u = length v -> (forall i a, nth_error u i = Some a -> length a = 3%nat) -> (forall i a, nth_error v i = Some a -> length a = 3%nat) ->
    concat u = concat v -> u = v.
  Proof.
    induction u as [|a u IH]; intros [|b v] L Lu Lv X; try discriminate; [reflexivity|]. cbn [concat] in X.
    pose proof (Lu 0%nat a eq_refl) as La. pose proof (Lv 0%nat b eq_refl) as Lb.
    destruct a as [|a0 [|a1 [|a2 [|]]]]; try discriminate. destruct b as [|b0 [|b1 [|b2 [|]]]]; try discriminate. cbn [app] in X. injection X as -> -> -> X.
    f_equal. apply IH; [cbn in L; lia|intros i; exact (Lu (S i))|intros i; exact (Lv (S i))|exact X].
  Qed.
  Lemma dotp_claims_inv x r (Ds : list (triple K)) dl dr dw : dotp_claims x (length Ds * 2) (dl, dr, dw) =
      Ok (flat_map (fun t => [mle (t1 t) (x :: r); mle (t2 t) (x :: r); mle (t3 t) (x :: r)]) Ds) ->
    forall j, (j < length Ds)%nat -> let D := nth j Ds ([], [], []) in
      let q (l T : list K) := (2 * j + 1 < length l)%nat /\ nth (2 * j) l 0 + x * (nth (2 * j + 1) l 0 - nth (2 * j) l 0) = mle T (x :: r) in
      q dl (t1 D) /\ q dr (t2 D) /\ q dw (t3 D).
  Proof.
    intros X j Hj D q. unfold dotp_claims in X. rewrite Nat.div_mul in X by lia.
    destruct (mapM _ _) as [vs| |] eqn:EM; cbn [bind] in X; try discriminate. injection X as X.
    destruct (mapM_inv _ _ _ EM) as [L P]. rewrite seq_length in L.
    assert (Q : forall j, (j < length Ds)%nat -> exists a b c, nth_error vs j = Some [a; b; c] /\
      (2 * j + 1 < length dl)%nat /\ (2 * j + 1 < length dr)%nat /\ (2 * j + 1 < length dw)%nat /\
      a = nth (2 * j) dl 0 + x * (nth (2 * j + 1) dl 0 - nth (2 * j) dl 0) /\
      b = nth (2 * j) dr 0 + x * (nth (2 * j + 1) dr 0 - nth (2 * j) dr 0) /\
      c = nth (2 * j) dw 0 + x * (nth (2 * j + 1) dw 0 - nth (2 * j) dw 0)).
    { clear j Hj D q. intros j Hj. destruct (P j j (nth_error_seq _ _ Hj)) as (b & Nb & Eb).
      destruct (idx dl (2 * j)) as [a0| |] eqn:I1; try discriminate. destruct (idx dl (2 * j + 1)) as [a1| |] eqn:I2; try discriminate. cbn [bind] in Eb.
      destruct (idx dr (2 * j)) as [b0| |] eqn:I3; try discriminate. destruct (idx dr (2 * j + 1)) as [b1| |] eqn:I4; try discriminate. cbn [bind] in Eb.
      destruct (idx dw (2 * j)) as [c0| |] eqn:I5; try discriminate. destruct (idx dw (2 * j + 1)) as [c1| |] eqn:I6; try discriminate. cbn [bind] in Eb.
      injection Eb as <-. apply (idx_inv _ _ _ 0) in I1, I2, I3, I4, I5, I6. destruct I1 as [_ ->], I2 as [? ->], I3 as [_ ->], I4 as [? ->], I5 as [_ ->], I6 as [? ->].
      eexists _, _, _. split; [exact Nb|]. repeat split; assumption. }
    assert (EV : vs = map (fun t => [mle (t1 t) (x :: r); mle (t2 t) (x :: r); mle (t3 t) (x :: r)]) Ds).
    { apply concat3.
      - rewrite map_length. exact L.
      - intros i a Ha. destruct (Q i) as (u & v & w & Nu & _); [rewrite <- L; apply nth_error_Some; congruence|]. rewrite Nu in Ha. injection Ha as <-. reflexivity.
      - intros i a Ha. rewrite nth_error_map in Ha. destruct (nth_error Ds i); [|discriminate]. injection Ha as <-. reflexivity.
      - rewrite X. apply flat_map_concat_map. }
    destruct (Q j Hj) as (a & b & c & Nj & L1 & L2 & L3 & Ea & Eb & Ec). rewrite EV, nth_error_map in Nj.
    rewrite (nth_error_nth' Ds ([], [], []) Hj) in Nj. cbn [option_map] in Nj. injection Nj as <- <- <-. fold D in Ea, Eb, Ec.
    repeat split; auto.
  Qed.
  Lemma meet_one (a b A B x : K) : a + x * (b - a) = A + x * (B - A) -> (a = A /\ b = B) \/ meet a b A B x.
  Proof.
    intro X. destruct (feqb_spec K a A) as [->|Na]; [destruct (feqb_spec K b B) as [->|Nb]|]; [left; split; reflexivity|right; split; auto..].
  Qed.
  Lemma bounded_or (n : nat) (P Q : nat -> Prop) : (forall j, (j < n)%nat -> P j \/ Q j) -> (forall j, (j < n)%nat -> P j) \/ exists j, (j < n)%nat /\ Q j.
  Proof.
    induction n; intro D; [left; intros; lia|]. destruct IHn as [A|(j & Hj & Hq)]; [intros j Hj; apply D; lia| |right; exists j; split; [lia|exact Hq]].
    destruct (D n (le_n _)) as [Pn|Qn]; [left|right; exists n; split; [lia|exact Qn]].
    intros j Hj. destruct (Nat.eq_dec j n) as [->|]; [exact Pn|apply A; lia].
  Qed.
  Lemma cut_nth (Ds : list (triple K)) j : (j < length Ds)%nat ->
    nth (2 * j) (cut Ds) ([], [], []) = tlo (nth j Ds ([], [], [])) /\ nth (2 * j + 1) (cut Ds) ([], [], []) = thi (nth j Ds ([], [], [])).
  Proof.
    intro Hj. destruct (idx_pairs tlo thi ([], [], []) Ds j Hj) as [A B]. 
    apply (idx_inv _ _ _ ([], [], [])) in A, B. destruct A as [_ A], B as [_ B]. split; symmetry; [exact A|exact B].
  Qed.

  Lemma dotp_or x r (Ds : list (triple K)) dl dr dw coeffs np v : (forall t, In t Ds -> tlen (S (length r)) t) -> length coeffs = (np + length Ds * 2)%nat ->
    dotp_expected coeffs np (dl, dr, dw) = Ok v ->
    dotp_claims x (length Ds * 2) (dl, dr, dw) = Ok (flat_map (fun t => [mle (t1 t) (x :: r); mle (t2 t) (x :: r); mle (t3 t) (x :: r)]) Ds) ->
    v = dot (map (fun t => mle (t1 t) r * mle (t2 t) r * mle (t3 t) r) (cut Ds)) (skipn np coeffs) \/
    exists j, (j < length Ds)%nat /\ let D := nth j Ds ([], [], []) in
         let q (l : list K) (T : list K) := meet (nth (2 * j) l 0) (nth (2 * j + 1) l 0) (mle (lo T) r) (mle (hi T) r) x in
         q dl (t1 D) \/ q dr (t2 D) \/ q dw (t3 D).
  Proof.
    intros LD Lc EX CL. pose proof (dotp_claims_inv x r Ds dl dr dw CL) as Q. destruct (dotp_expected_inv _ _ _ _ _ _ EX) as [Ld ->].
    set (ok j := let D := nth j Ds ([], [], []) in let q (l T : list K) := nth (2 * j) l 0 = mle (lo T) r /\ nth (2 * j + 1) l 0 = mle (hi T) r in q dl (t1 D) /\ q dr (t2 D) /\ q dw (t3 D)).
    destruct (bounded_or (length Ds) ok (fun j => let D := nth j Ds ([], [], []) in
         let q (l : list K) (T : list K) := meet (nth (2 * j) l 0) (nth (2 * j + 1) l 0) (mle (lo T) r) (mle (hi T) r) x in
         q dl (t1 D) \/ q dr (t2 D) \/ q dw (t3 D))) as [A|A]; [| |right; exact A].
    - intros j Hj. destruct (Q j Hj) as ((_ & Q1) & (_ & Q2) & (_ & Q3)). destruct (LD (nth j Ds ([], [], [])) ltac:(apply nth_In; exact Hj)) as (L1 & L2 & L3).
      rewrite mle_lo_hi in Q1, Q2, Q3 by assumption.
      destruct (meet_one _ _ _ _ _ Q1) as [[U1 U2]|M]; [|right; left; exact M]. destruct (meet_one _ _ _ _ _ Q2) as [[U3 U4]|M]; [|right; right; left; exact M].
      destruct (meet_one _ _ _ _ _ Q3) as [[U5 U6]|M]; [|right; right; right; exact M]. left. repeat split; assumption.
    - left. assert (Ldl : length dl = (length Ds * 2)%nat).
      { destruct (Nat.eq_dec (length Ds) 0) as [Z|NZ]; [rewrite Z in *; lia|]. destruct (Q (length Ds - 1)%nat ltac:(lia)) as ((Q1 & _) & _). lia. }
      rewrite (dot_sumn _ _ _ (length Ds * 2)) by (rewrite ?map_length, ?skipn_length, ?cut_length; lia). rewrite Ldl. apply sumn_ext. intros i Hi.
      rewrite (nth_map0 (A := triple K) _ _ i ([], [], [])) by (rewrite cut_length; exact Hi). rewrite skipn_nth. replace (np + i)%nat with (i + np)%nat by lia.
      assert (EV : let t := nth i (cut Ds) ([], [], []) in nth i dl 0 = mle (t1 t) r /\ nth i dr 0 = mle (t2 t) r /\ nth i dw 0 = mle (t3 t) r).
      { destruct (Nat.Even_or_Odd i) as [[j Ej]|[j Ej]]; rewrite Ej; assert (Hj : (j < length Ds)%nat) by lia;
          destruct (cut_nth Ds j Hj) as [C1 C2]; destruct (A j Hj) as ((A1 & A2) & (A3 & A4) & (A5 & A6)); rewrite ?C1, ?C2; repeat split; assumption. }
      cbn zeta in EV. destruct EV as (-> & -> & ->). ring.
  Qed.

  Lemma map_len_eq {A B} (f : A -> B) (l : list A) u : u = map f l -> length u = length l.
  Proof. intros ->. apply map_length. Qed.
  Lemma list_dec (a b : list K) : {a = b} + {a <> b}.
  Proof. apply list_eq_dec. intros x y. destruct (feqb_spec K x y); [left|right]; assumption. Qed.

  (** one layer: if the values it leaves are true, either they were combined from true values and
      the sum-check was right about a true or a false claim, or a line was hit *)
  Lemma blayer_core n (Zs : list (list K)) (Ds : list (triple K)) i polys left right dl dr dw claims rand (tr : log E) coeffs tr0 e r tr1 v :
    (forall Z, In Z Zs -> length Z = (2 ^ n)%nat) -> (forall t, In t Ds -> tlen n t) -> (i < n)%nat -> length rand = i ->
    let fin := Nat.eqb (S i) n in
    let Vs := map (level (n - S i)) Zs in
    length claims = (length Zs + if fin then length Ds * 2 else 0)%nat ->
    challenges H "rand_coeffs_next_layer" (length claims) tr = (coeffs, tr0) ->
    sc_verify H polys (dot claims coeffs) i 3 tr0 = Ok (e, r, tr1) ->
    length left = length Zs -> length right = length Zs ->
    fsum (map2 (fun c p => c * p) coeffs (map2 (fun l r' => l * r' * eq_points rand r) left right)) + v = e ->
    (if fin then dotp_expected coeffs (length Zs) (dl, dr, dw) else Ok 0) = Ok v ->
    let tr2 := app_claims left right tr1 in
    let tr3 := if fin then app_dotp dl dr dw tr2 else tr2 in
    let x := H (MChal "challenge_r_layer" :: tr3) in
    condense x left right = map (fun V => mle V (x :: r)) Vs ->
    (fin = true -> dotp_claims x (length Ds * 2) (dl, dr, dw) = Ok (flat_map (fun t => [mle (t1 t) (x :: r); mle (t2 t) (x :: r); mle (t3 t) (x :: r)]) Ds)) ->
    claims = map (fun Z => mle (level (n - i) Z) rand) Zs ++ (if fin then map (fun t => dot3 (t1 t) (t2 t) (t3 t)) (cut Ds) else []) \/
    bad_batch H n Zs Ds i polys left right dl dr dw claims rand tr.
  Proof.
    intros LZ LD Hi Lr fin Vs Lcl EC EV Lle Lri Ee Ev tr2 tr3 x CO CD.
    set (truth := map (fun Z => mle (level (n - i) Z) rand) Zs ++ (if fin then map (fun t => dot3 (t1 t) (t2 t) (t3 t)) (cut Ds) else [])).
    destruct (list_dec claims truth) as [T|NT]; [left; exact T|right].
    pose proof (sc_verify_len H _ _ _ _ _ _ _ _ EV) as Lrr.
    assert (LV : forall V, In V Vs -> length V = (2 ^ S i)%nat) by (intros V I; apply in_map_iff in I; destruct I as (Z & <- & I); apply level_len; rewrite (LZ Z I); f_equal; lia).
    pose proof (challenges_eq "rand_coeffs_next_layer" (length claims) tr) as CE. rewrite EC in CE. pose proof (f_equal fst CE) as CE1. pose proof (f_equal snd CE) as CE2. cbn [fst snd] in CE1, CE2.
    assert (Lco : length coeffs = length claims) by (rewrite CE1, map_length, seq_length; reflexivity).
    split; [exact NT|]. fold fin. fold Vs. rewrite <- CE1, <- CE2.
    assert (LVs : length Vs = length Zs) by (unfold Vs; apply map_length).
    assert (CO' : condense x left right = map (fun V => mle (lo V) r + x * (mle (hi V) r - mle (lo V) r)) Vs).
    { rewrite CO. apply map_ext_in. intros V I. apply mle_lo_hi. rewrite Lrr. apply LV, I. }
    assert (EX : x = H (MChal "challenge_r_layer" :: (if fin then rev (flat_map (fun '(a, b, c) => [MScalar "claim_dotp_left" a; MScalar "claim_dotp_right" b; MScalar "claim_dotp_weight" c])
                                     (combine (combine dl dr) dw)) ++ (rev (flat_map (fun '(a, b) => [MScalar "claim_prod_left" a; MScalar "claim_prod_right" b]) (combine left right)) ++ tr1)
                 else rev (flat_map (fun '(a, b) => [MScalar "claim_prod_left" a; MScalar "claim_prod_right" b]) (combine left right)) ++ tr1))).
    { unfold x, tr3, tr2. rewrite app_claims_eq. destruct fin; [rewrite app_dotp_eq|]; reflexivity. }
    destruct (meet_or x r Vs left right ltac:(lia) ltac:(lia) CO') as [[TL TR]|(j & Hj & M)].
    2: { right; right. exists e, r, tr1. split; [exact EV|]. cbn zeta. rewrite <- EX. left. exists j. split; [lia|exact M]. }
    assert (DV : v = dot (if fin then map (fun t => mle (t1 t) r * mle (t2 t) r * mle (t3 t) r) (cut Ds) else []) (skipn (length Zs) coeffs) \/
      fin = true /\ exists j, (j < length Ds)%nat /\ let D := nth j Ds ([], [], []) in
         let q (l : list K) (T : list K) := meet (nth (2 * j) l 0) (nth (2 * j + 1) l 0) (mle (lo T) r) (mle (hi T) r) x in
         q dl (t1 D) \/ q dr (t2 D) \/ q dw (t3 D)).
    { destruct fin eqn:Efin.
      - assert (n = S i) as En by (symmetry; apply Nat.eqb_eq; exact Efin).
        destruct (dotp_or x r Ds dl dr dw coeffs (length Zs) v) as [A|A]; [intros t I; rewrite Lrr, <- En; apply LD, I|lia|exact Ev|apply CD; reflexivity|left; exact A|right; split; [reflexivity|exact A]].
      - left. injection Ev as <-. reflexivity. }
    destruct DV as [DV|DV].
    2: { right; right. exists e, r, tr1. split; [exact EV|]. cbn zeta. rewrite <- EX. right. exact DV. }
    set (fs := map (fun V b => mle (lo V) b * mle (hi V) b * eq_mle rand b) Vs ++ (if fin then map (fun t b => mle (t1 t) b * mle (t2 t) b * mle (t3 t) b) (cut Ds) else [])).
    assert (Efs : forall b, map (fun V => mle (lo V) b * mle (hi V) b * eq_mle rand b) Vs ++ (if fin then map (fun t => mle (t1 t) b * mle (t2 t) b * mle (t3 t) b) (cut Ds) else []) = map (fun f => f b) fs).
    { intro b. unfold fs. rewrite map_app, map_map. f_equal. destruct fin; [rewrite map_map|]; reflexivity. }
    assert (Lcut : length (if fin then map (fun t => mle (t1 t) r * mle (t2 t) r * mle (t3 t) r) (cut Ds) else []) = (if fin then length Ds * 2 else 0)%nat).
    { destruct fin; [rewrite map_length, cut_length|]; reflexivity. }
    assert (FR : dot (map (fun f => f r) fs) coeffs = e).
    { rewrite <- Efs, <- Ee. rewrite dot_split by (rewrite Lcut, map_length; lia). rewrite map_length, LVs, <- DV. f_equal.
      rewrite (eq_points_mle rand r) by congruence. rewrite (expected_ok _ _ coeffs _ _ _ Vs TL TR). reflexivity. }
    assert (DG : deg_each 3 i (fun b => dot (map (fun f => f b) fs) coeffs)).
    { apply deg_dot. intros f I. unfold fs in I. apply in_app_or in I. destruct I as [I|I].
      - apply in_map_iff in I. destruct I as (V & <- & I). destruct (half_len V i (LV V I)) as [A B]. apply deg3_prod; [exact A|exact B|rewrite eq_evals_length, Lr; reflexivity].
      - destruct fin eqn:Efin; [|destruct I]. assert (n = S i) as En by (symmetry; apply Nat.eqb_eq; exact Efin). subst n.
        apply in_map_iff in I. destruct I as (t & <- & I). destruct (cut_len i Ds LD t I) as (A & B & C). apply deg3_prod; assumption. }
    assert (HS : hsum i (fun b => dot (map (fun f => f b) fs) coeffs) = dot truth coeffs).
    { rewrite hsum_dot. f_equal. unfold fs, truth. rewrite map_app, map_map. f_equal.
      - unfold Vs. rewrite map_map. apply map_ext_in. intros Z I. rewrite hsum_level by (assumption || (apply LV; unfold Vs; apply in_map; exact I)).
        replace (n - i)%nat with (S (n - S i)) by lia. reflexivity.
      - destruct fin eqn:Efin; [|reflexivity]. assert (n = S i) as En by (symmetry; apply Nat.eqb_eq; exact Efin). subst n.
        rewrite map_map. apply map_ext_in. intros t I. destruct (cut_len i Ds LD t I) as (A & B & C). rewrite hsum_tables by assumption. unfold dot3. rewrite A. reflexivity. }
    destruct (feqb_spec K (dot claims coeffs) (dot truth coeffs)) as [EQ|NE]; [left; exact EQ|]. right; left.
    exists e, r, tr1. split; [exact EV|]. split; [|split].
    - apply (deg_ext 3 i (fun b => dot (map (fun f => f b) fs) coeffs)); [intro b; rewrite Efs; reflexivity|exact DG].
    - rewrite Efs. exact FR.
    - rewrite (hsum_ext i _ (fun b => dot (map (fun f => f b) fs) coeffs)) by (intros b _; rewrite Efs; reflexivity). rewrite HS. congruence.
  Qed.

  Lemma pb_sound n (Zs : list (list K)) (Ds : list (triple K)) dl dr dw dv pfs :
    (forall Z, In Z Zs -> length Z = (2 ^ n)%nat) -> (forall t, In t Ds -> tlen n t) -> length dv = (length Ds * 2)%nat ->
    forall i claims rand cd (tr : log E) claims' cd' rand' tr',
    (i + length pfs = n)%nat -> length rand = i -> length claims = length Zs ->
    pb_verify_loop H (dl, dr, dw) (length Zs) dv (n - 1) pfs i claims rand cd tr = Ok (claims', cd', rand', tr') ->
    claims' = map (fun Z => mle Z rand') Zs ->
    ((i < n)%nat -> cd' = cd ++ flat_map (fun t => [mle (t1 t) rand'; mle (t2 t) rand'; mle (t3 t) rand']) Ds) ->
    length rand' = n /\
    ((claims = map (fun Z => mle (level (n - i) Z) rand) Zs /\ ((i < n)%nat -> dv = map (fun t => dot3 (t1 t) (t2 t) (t3 t)) (cut Ds))) \/
     exists j pf cj cdj rj tj, nth_error pfs j = Some pf /\
       pb_verify_loop H (dl, dr, dw) (length Zs) dv (n - 1) (firstn j pfs) i claims rand cd tr = Ok (cj, cdj, rj, tj) /\
       bad_batch H n Zs Ds (i + j) (by_proof pf) (by_left pf) (by_right pf) dl dr dw (cj ++ (if Nat.eqb (S (i + j)) n then dv else [])) rj tj).
  Proof.
    intros LZ LD Ldv. induction pfs as [|pf pfs IH]; intros i claims rand cd tr claims' cd' rand' tr' Li Lr Lcl X Ec Ed.
    - cbn in X. injection X as <- <- <- <-. cbn [length] in Li. split; [lia|]. left. replace (n - i)%nat with 0%nat by lia. split; [exact Ec|lia].
    - cbn [length] in Li. assert (Hfin : Nat.eqb i (n - 1) = Nat.eqb (S i) n) by (destruct (Nat.eqb_spec i (n - 1)), (Nat.eqb_spec (S i) n); lia || reflexivity).
      pose proof X as X0. cbn [pb_verify_loop] in X. rewrite Hfin in X. set (fin := Nat.eqb (S i) n) in *.
      set (all := if fin then claims ++ dv else claims) in X.
      assert (Eall : all = claims ++ (if fin then dv else [])) by (unfold all; destruct fin; [|rewrite app_nil_r]; reflexivity).
      assert (Lall : length all = (length Zs + if fin then length Ds * 2 else 0)%nat) by (rewrite Eall, app_length; destruct fin; cbn [length]; lia).
      destruct (challenges H "rand_coeffs_next_layer" (length all) tr) as [coeffs tr0] eqn:EC.
      destruct (sc_verify H (by_proof pf) (dot all coeffs) i 3 tr0) as [[[e r] tr1]| |] eqn:EV; try discriminate. cbn [bind] in X.
      destruct (Nat.eqb_spec (length (by_left pf)) (length Zs)) as [Lle|]; [|discriminate].
      destruct (Nat.eqb_spec (length (by_right pf)) (length Zs)) as [Lri|]; [|discriminate].
      destruct (Nat.eqb_spec (length rand) (length r)) as [Lrr|]; [|discriminate].
      destruct (if fin then dotp_expected coeffs (length Zs) (dl, dr, dw) else Ok 0) as [v| |] eqn:Ev; try discriminate. cbn [bind fst snd] in X.
      destruct (feqb_spec K (fsum (map2 (fun c p => c * p) coeffs (map2 (fun l r' => l * r' * eq_points rand r) (by_left pf) (by_right pf))) + v) e) as [Ee|]; [|discriminate].
      unfold challenge in X. cbn beta iota in X.
      match type of X with context [H ?l] => set (x := H l) in X end.
      destruct (if fin then dotp_claims x (length dv) (dl, dr, dw) else Ok []) as [cd1| |] eqn:Ecd; try discriminate. cbn [bind] in X.
      assert (Lco : length (condense x (by_left pf) (by_right pf)) = length Zs) by (unfold condense; rewrite map2_len; lia).
      pose proof (blayer_core n Zs Ds i (by_proof pf) (by_left pf) (by_right pf) dl dr dw all rand tr coeffs tr0 e r tr1 v LZ LD ltac:(lia) Lr Lall EC EV Lle Lri Ee Ev) as CORE.
      cbn zeta in CORE. fold fin in CORE. match type of CORE with context [H ?l] => change (H l) with x in CORE end.
      assert (HERE : condense x (by_left pf) (by_right pf) = map (fun V => mle V (x :: r)) (map (level (n - S i)) Zs) ->
        (fin = true -> dotp_claims x (length Ds * 2) (dl, dr, dw) = Ok (flat_map (fun t => [mle (t1 t) (x :: r); mle (t2 t) (x :: r); mle (t3 t) (x :: r)]) Ds)) ->
        (fin = false -> dv = map (fun t => dot3 (t1 t) (t2 t) (t3 t)) (cut Ds)) ->
        (claims = map (fun Z => mle (level (n - i) Z) rand) Zs /\ ((i < n)%nat -> dv = map (fun t => dot3 (t1 t) (t2 t) (t3 t)) (cut Ds))) \/
        exists j pf0 cj cdj rj tj, nth_error (pf :: pfs) j = Some pf0 /\
          pb_verify_loop H (dl, dr, dw) (length Zs) dv (n - 1) (firstn j (pf :: pfs)) i claims rand cd tr = Ok (cj, cdj, rj, tj) /\
          bad_batch H n Zs Ds (i + j) (by_proof pf0) (by_left pf0) (by_right pf0) dl dr dw (cj ++ (if Nat.eqb (S (i + j)) n then dv else [])) rj tj).
      { intros A B C. destruct (CORE A B) as [T|Bad].
        - left. rewrite Eall in T. assert (Lm : length claims = length (map (fun Z => mle (level (n - i) Z) rand) Zs)) by (rewrite map_length; exact Lcl).
          destruct (app_inj_len _ _ _ _ Lm T) as [T1 T2]. split; [exact T1|]. intros _. destruct fin; [exact T2|apply C; reflexivity].
        - right. exists 0%nat, pf, claims, cd, rand, tr. split; [reflexivity|]. split; [reflexivity|]. rewrite Nat.add_0_r. fold fin. rewrite <- Eall. exact Bad. }
      destruct fin eqn:Efin.
      + assert (n = S i) as En by (symmetry; apply Nat.eqb_eq; exact Efin). assert (pfs = []) as -> by (destruct pfs; [reflexivity|cbn in Li; lia]).
        cbn [pb_verify_loop] in X. injection X as <- <- <- <-. split; [cbn [length]; lia|]. specialize (Ed ltac:(lia)). apply app_inv_head in Ed.
        apply HERE; [|intros _; rewrite <- Ldv, Ecd, Ed; reflexivity|discriminate].
        rewrite Ec. replace (n - S i)%nat with 0%nat by lia. cbn [level]. rewrite map_id. reflexivity.
      + injection Ecd as <-. rewrite app_nil_r in X. assert (S i <> n) by (apply Nat.eqb_neq; exact Efin).
        apply IH in X; [|lia|cbn [length]; lia|exact Lco|exact Ec|intros _; apply Ed; lia]. destruct X as [LR X]. split; [exact LR|].
        destruct X as [[T1 T2]|(j & pf' & cj & cdj & rj & tj & N & P & Bad)].
        * apply HERE; [rewrite map_map; exact T1|discriminate|intros _; apply T2; lia].
        * right. exists (S j), pf', cj, cdj, rj, tj. split; [exact N|]. split; [|replace (i + S j)%nat with (S i + j)%nat by lia; exact Bad].
          cbn [firstn pb_verify_loop]. rewrite Hfin. fold all. rewrite EC, EV. cbn [bind].
          destruct (Nat.eqb_spec (length (by_left pf)) (length Zs)) as [_|]; [|contradiction].
          destruct (Nat.eqb_spec (length (by_right pf)) (length Zs)) as [_|]; [|contradiction].
          destruct (Nat.eqb_spec (length rand) (length r)) as [_|]; [|contradiction]. injection Ev as <-. cbn [bind].
          match goal with |- context [feqb ?a ?b] => destruct (feqb_spec K a b) as [_|NN]; [|contradiction] end.
          unfold challenge. cbn [bind]. rewrite app_nil_r. exact P.
  Qed.

  (** before the last layer the dot products are not looked at *)
  Lemma pb_prefix np dotp dv last last' pfs : forall i claims rand cd (tr : log E), (i + length pfs <= last)%nat ->
    pb_verify_loop H dotp np dv last pfs i claims rand cd tr = pb_verify_loop H ([], [], []) np [] last' pfs i claims rand cd tr.
  Proof.
    induction pfs as [|pf pfs IH]; intros i claims rand cd tr L; [reflexivity|]. cbn [length] in L. cbn [pb_verify_loop].
    destruct (Nat.eqb_spec i last); [lia|].
    replace (if Nat.eqb i last' then claims ++ [] else claims) with claims by (destruct (Nat.eqb i last'); [rewrite app_nil_r|]; reflexivity).
    destruct (challenges H _ _ tr) as [coeffs tr0]. destruct (sc_verify H _ _ _ _ _) as [[[e r] tr1]| |]; cbn [bind]; try reflexivity.
    destruct (Nat.eqb _ np); [|reflexivity]. destruct (Nat.eqb _ np); [|reflexivity]. destruct (Nat.eqb _ _); [|reflexivity].
    replace (if Nat.eqb i last' then dotp_expected coeffs np ([], [], []) else Ok 0) with (Ok 0 : res K) by (destruct (Nat.eqb i last'); reflexivity). cbn [bind fst snd].
    destruct (feqb _ _); [|reflexivity]. unfold challenge.
    replace (if Nat.eqb i last' then app_dotp [] [] [] (app_claims (by_left pf) (by_right pf) tr1) else app_claims (by_left pf) (by_right pf) tr1)
      with (app_claims (by_left pf) (by_right pf) tr1) by (destruct (Nat.eqb i last'); reflexivity).
    match goal with |- context [if Nat.eqb i last' then ?u else ?w] => replace (if Nat.eqb i last' then u else w) with (Ok [] : res (list K)) by (destruct (Nat.eqb i last'); reflexivity) end.
    cbn [bind]. apply IH. lia.
  Qed.

  Lemma pcb_sound n (Zs : list (list K)) (Ds : list (triple K)) pf dl dr dw pv dv (tr : log E) claims cd rand tr' : (1 <= n)%nat ->
    (forall Z, In Z Zs -> length Z = (2 ^ n)%nat) -> (forall t, In t Ds -> tlen n t) -> length pv = length Zs -> length dv = (length Ds * 2)%nat ->
    pcb_verify H (MkBProof pf (dl, dr, dw)) pv dv (2 ^ n) tr = Ok (claims, cd, rand, tr') ->
    claims = map (fun Z => mle Z rand) Zs -> cd = flat_map (fun t => [mle (t1 t) rand; mle (t2 t) rand; mle (t3 t) rand]) Ds ->
    length pf = n /\ length rand = n /\
    (pv = map fprod Zs /\ dv = map (fun t => dot3 (t1 t) (t2 t) (t3 t)) (cut Ds) \/
     exists i pfi ci ri ti, (i < n)%nat /\ nth_error pf i = Some pfi /\
       pcb_verify H (MkBProof (firstn i pf) ([], [], [])) pv [] (2 ^ i) tr = Ok (ci, [], ri, ti) /\
       bad_batch H n Zs Ds i (by_proof pfi) (by_left pfi) (by_right pfi) dl dr dw (ci ++ (if Nat.eqb (S i) n then dv else [])) ri ti).
  Proof.
    intros Hn LZ LD Lpv Ldv X Ec Ed. unfold pcb_verify in X. rewrite log_2_pow in X. cbn [bind bp_layers bp_dotp] in X.
    destruct (Nat.eqb_spec (length pf) n) as [Lp|]; [|discriminate]. split; [exact Lp|]. rewrite Lpv in X.
    destruct (pb_sound n Zs Ds dl dr dw dv pf LZ LD Ldv 0 pv [] [] tr claims cd rand tr' ltac:(lia) eq_refl Lpv X Ec ltac:(intros _; exact Ed)) as [LR [[T1 T2]|(j & pfj & cj & cdj & rj & tj & N & P & B)]]; (split; [exact LR|]).
    - left. split; [|apply T2; lia]. rewrite T1, Nat.sub_0_r. apply map_ext_in. intros Z I. rewrite (level_top n Z (LZ Z I)), mle_nil. reflexivity.
    - right. assert (j < n)%nat by (rewrite <- Lp; apply nth_error_Some; congruence).
      rewrite (pb_prefix _ _ _ _ (j - 1)) in P by (rewrite firstn_length; lia).
      assert (cdj = []) as ->.
      { assert (CD : forall last pfs i claims rand cd (tr : log E) c cd' r t, pb_verify_loop H ([], [], []) (length Zs) [] last pfs i claims rand cd tr = Ok (c, cd', r, t) -> cd' = cd).
        { clear. intros last pfs. induction pfs as [|q pfs IH]; intros i claims rand cd tr c cd' r t X; cbn [pb_verify_loop] in X; [injection X as _ <- _ _; reflexivity|].
          destruct (challenges H _ _ tr) as [coeffs tr0]. destruct (sc_verify H _ _ _ _ _) as [[[e0 r0] tr1]| |]; cbn [bind] in X; try discriminate.
          destruct (Nat.eqb _ (length Zs)); [|discriminate]. destruct (Nat.eqb _ (length Zs)); [|discriminate]. destruct (Nat.eqb (length rand) _); [|discriminate].
          destruct (if Nat.eqb i last then dotp_expected _ _ _ else _) as [ex| |]; cbn [bind] in X; try discriminate. destruct (feqb _ _); [|discriminate]. unfold challenge in X.
          match type of X with context [if Nat.eqb i last then dotp_claims ?u ?v ?w else ?z] => replace (if Nat.eqb i last then dotp_claims u v w else z) with (Ok [] : res (list K)) in X by (destruct (Nat.eqb i last); reflexivity) end.
          cbn [bind] in X. rewrite app_nil_r in X. apply IH in X. exact X. }
        apply CD in P. exact P. }
      exists j, pfj, cj, rj, tj. split; [assumption|]. split; [exact N|]. split; [|exact B].
      unfold pcb_verify. rewrite log_2_pow. cbn [bind bp_layers bp_dotp]. rewrite firstn_length, Nat.min_l, Nat.eqb_refl by lia. rewrite Lpv. exact P.
  Qed.
End SoundB.
