From Coq Require Import List Arith ZArith Bool Lia Field Ring.
From Verif Require Import Base ListAux Field Zq Vec MathModel PolyModel PolySpec PolyProofs PolyImp R1csModel R1csSpec R1csProofs R1csMore.
Import ListNotations.
Local Open Scope fld_scope.

Lemma api_is_sat (K : Fld) (bytes : Type) (parse : bytes -> option K) (D : Type) (digest_of : r1cs K -> D)
    (nc nv ni : nat) (A B C : list (nat * nat * bytes)) (VA VB VC : list (nat * nat * K)) :
  triples_ok parse nc nv ni A VA -> triples_ok parse nc nv ni B VB -> triples_ok parse nc nv ni C VC ->
  exists I, instance_new parse digest_of nc nv ni A B C = Ok I /\
    forall vars inputs,
      if Nat.leb (length vars) (next_pow2 (Nat.max nv (ni + 1))) && Nat.eqb (length inputs) ni
      then exists b, instance_is_sat I vars inputs = Ok b /\
             (b = true <-> sat nc VA VB VC (fit nv vars ++ [1] ++ inputs))
      else instance_is_sat I vars inputs = Err InvalidNumberOfInputs.
Proof.
  intros HA HB HC. destruct (is_sat_ok K bytes parse D digest_of _ _ _ _ _ _ _ _ _ [] [] HA HB HC) as (I & E & _).
  exists I. split; [exact E|]. intros vars inputs.
  destruct (is_sat_ok K bytes parse D digest_of _ _ _ _ _ _ _ _ _ vars inputs HA HB HC) as (I' & E' & H1 & H2).
  rewrite E in E'. injection E' as <-. rewrite pad_vars_eq in H1, H2.
  destruct (Nat.leb_spec (length vars) (next_pow2 (Nat.max nv (ni + 1)))) as [L|L]; cbn [andb]; [|apply H2; left; exact L].
  destruct (Nat.eqb_spec (length inputs) ni) as [Ei|Ei]; [apply H1; assumption|apply H2; right; exact Ei].
Qed.

Lemma api_accepts (K : Fld) (bytes : Type) (parse : bytes -> option K) (D : Type) (digest_of : r1cs K -> D)
    (nc nv ni : nat) (A B C : list (nat * nat * bytes)) :
  match first_bad parse nc nv ni A, first_bad parse nc nv ni B, first_bad parse nc nv ni C with
  | Some x, _, _ => instance_new parse digest_of nc nv ni A B C = Err x
  | None, Some x, _ => instance_new parse digest_of nc nv ni A B C = Err x
  | None, None, Some x => instance_new parse digest_of nc nv ni A B C = Err x
  | None, None, None => exists I, instance_new parse digest_of nc nv ni A B C = Ok I
  end.
Proof.
  pose proof (to_scalars_err K bytes parse nc nv ni A) as EA. pose proof (to_scalars_err K bytes parse nc nv ni B) as EB.
  pose proof (to_scalars_err K bytes parse nc nv ni C) as EC.
  destruct (first_bad parse nc nv ni A) as [x|]; [unfold instance_new, bytes_to_scalar; rewrite EA; reflexivity|].
  destruct EA as [VA EA].
  destruct (first_bad parse nc nv ni B) as [x|];
    [unfold instance_new, bytes_to_scalar; rewrite (to_scalars_ok _ _ _ _ _ _ _ _ EA), EB; reflexivity|].
  destruct EB as [VB EB].
  destruct (first_bad parse nc nv ni C) as [x|];
    [unfold instance_new, bytes_to_scalar; rewrite (to_scalars_ok _ _ _ _ _ _ _ _ EA), (to_scalars_ok _ _ _ _ _ _ _ _ EB), EC; reflexivity|].
  destruct EC as [VC EC]. destruct (instance_new_ok K bytes parse D digest_of _ _ _ _ _ _ _ _ _ EA EB EC) as (I & E & _).
  exists I. exact E.
Qed.
Lemma new_dims (K : Fld) (bytes : Type) (parse : bytes -> option K) (D : Type) (digest_of : r1cs K -> D)
    (nc nv ni : nat) (A B C : list (nat * nat * bytes)) I :
  instance_new parse digest_of nc nv ni A B C = Ok I ->
  rc_cons (inst I) = pad_cons nc /\ rc_vars (inst I) = pad_vars nv ni /\ rc_inputs (inst I) = ni /\ r1cs_wf (inst I).
Proof.
  intro H. pose proof (to_scalars_err K bytes parse nc nv ni A) as EA. pose proof (to_scalars_err K bytes parse nc nv ni B) as EB.
  pose proof (to_scalars_err K bytes parse nc nv ni C) as EC. pose proof (api_accepts K bytes parse D digest_of nc nv ni A B C) as Ha.
  destruct (first_bad parse nc nv ni A); [congruence|]. destruct (first_bad parse nc nv ni B); [congruence|].
  destruct (first_bad parse nc nv ni C); [congruence|]. destruct EA as [VA EA]. destruct EB as [VB EB]. destruct EC as [VC EC].
  destruct (instance_new_ok K bytes parse D digest_of _ _ _ _ _ _ _ _ _ EA EB EC) as (I' & E & EI & _).
  rewrite H in E. injection E as <-. rewrite EI. split; [reflexivity|]. split; [reflexivity|]. split; [reflexivity|].
  eapply inst_wf; eassumption.
Qed.
Lemma api_dims (K : Fld) (bytes : Type) (parse : bytes -> option K) (D : Type) (digest_of : r1cs K -> D)
    (nc nv ni : nat) (A B C : list (nat * nat * bytes)) I :
  instance_new parse digest_of nc nv ni A B C = Ok I ->
  (nc <= rc_cons (inst I))%nat /\ (exists k, rc_cons (inst I) = 2 ^ k)%nat /\
  (nv <= rc_vars (inst I))%nat /\ (ni + 1 <= rc_vars (inst I))%nat /\ (exists k, rc_vars (inst I) = 2 ^ k)%nat /\
  rc_inputs (inst I) = ni.
Proof.
  intro H. apply new_dims in H. destruct H as (-> & -> & -> & _). destruct (pad_cons_spec nc) as (C1 & C2 & _).
  destruct (pad_vars_spec nv ni) as (V1 & V2 & V3). split; [exact C1|]. split; [exists (Nat.log2_up (pad_cons nc)); symmetry; exact C2|].
  split; [exact V1|]. split; [lia|]. split; [exists (Nat.log2_up (pad_vars nv ni)); symmetry; exact V3|reflexivity].
Qed.
Lemma api_two (K : Fld) (bytes : Type) (parse : bytes -> option K) (D : Type) (digest_of : r1cs K -> D)
    (nc nv ni : nat) (A B C : list (nat * nat * bytes)) I :
  (1 <= nc)%nat -> instance_new parse digest_of nc nv ni A B C = Ok I -> (2 <= rc_cons (inst I))%nat.
Proof. intros Hn H. apply new_dims in H. destruct H as (-> & _). apply pad_cons_spec, Hn. Qed.
Lemma api_zero_cons (K : Fld) (bytes : Type) (parse : bytes -> option K) (D : Type) (digest_of : r1cs K -> D) (nv ni : nat) :
  exists I, instance_new parse digest_of 0 nv ni [] [] [] = Ok I /\ rc_cons (inst I) = 1%nat.
Proof.
  pose proof (api_accepts K bytes parse D digest_of 0 nv ni [] [] []) as H. cbn [first_bad] in H. destruct H as [I H].
  exists I. split; [exact H|]. apply new_dims in H. destruct H as (-> & _). reflexivity.
Qed.

Lemma api_convert (K : Fld) (bytes : Type) (parse : bytes -> option K) (D : Type) (digest_of : r1cs K -> D) (F : Type) (to_repr : F -> bytes)
    (f : F -> K) (r : circom F) (ni : nat) :
  coeffs (fun x => parse (to_repr x) = Some (f x)) (c_constraints r) -> wires_ok (c_num_variables r) (c_constraints r) ->
  exists I, convert parse digest_of to_repr r ni = Ok I /\
    forall w inputs, length w = c_num_variables r -> length inputs = ni ->
      exists b, instance_is_sat I w inputs = Ok b /\ (b = true <-> circom_sat (cons_map f (c_constraints r)) w).
Proof.
  intros Hp Hw.
  destruct (convert_ok K bytes parse D digest_of to_repr f r ni (repeat 0 (c_num_variables r)) (repeat 0 ni) Hp Hw) as (I & E & _);
    [apply repeat_length|apply repeat_length|].
  exists I. split; [exact E|]. intros w inputs HL Hi.
  destruct (convert_ok K bytes parse D digest_of to_repr f r ni w inputs Hp Hw HL Hi) as (I' & E' & _ & H).
  rewrite E in E'. injection E' as <-. exact H.
Qed.
Lemma api_unbound (K : Fld) (bytes : Type) (parse : bytes -> option K) (D : Type) (digest_of : r1cs K -> D) (F : Type) (to_repr : F -> bytes)
    (r : circom F) (ni : nat) :
  coeffs (fun x => parse (to_repr x) <> None) (c_constraints r) -> wires_ok (c_num_variables r) (c_constraints r) ->
  exists I, convert parse digest_of to_repr r ni = Ok I /\
    (forall w inputs inputs', length w = c_num_variables r -> length inputs = ni -> length inputs' = ni ->
       instance_is_sat I w inputs = instance_is_sat I w inputs') /\
    (forall inputs, length inputs = ni -> instance_is_sat I (repeat 0 (c_num_variables r)) inputs = Ok true).
Proof.
  intros Hp0 Hw. set (f := fun x => match parse (to_repr x) with Some v => v | None => 0 end).
  assert (Hp : coeffs (fun x => parse (to_repr x) = Some (f x)) (c_constraints r)).
  { assert (G : forall x, parse (to_repr x) <> None -> parse (to_repr x) = Some (f x)).
    { intros x N. unfold f. destruct (parse (to_repr x)); [reflexivity|congruence]. }
    intros a b c Hin. destruct (Hp0 a b c Hin) as (H1 & H2 & H3). repeat split; intros j x Hj; apply G; eauto. }
  destruct (api_convert K bytes parse D digest_of F to_repr f r ni Hp Hw) as (I & E & H). exists I. split; [exact E|]. split.
  - intros w i1 i2 HL H1 H2. destruct (H w i1 HL H1) as (b1 & -> & E1). destruct (H w i2 HL H2) as (b2 & -> & E2).
    f_equal. destruct b1, b2; try reflexivity; exfalso.
    + assert (false = true) by (apply E2, E1; reflexivity). discriminate.
    + assert (false = true) by (apply E1, E2; reflexivity). discriminate.
  - intros inputs Hi. destruct (H (repeat 0 (c_num_variables r)) inputs (repeat_length _ _) Hi) as (b & -> & Hb).
    f_equal. apply Hb. apply circom_sat_zero.
Qed.

Lemma api_mul (K : Fld) (P : sparse K) nr nc (z : list K) : length z = nc -> ents_ok nr nc (sM P) ->
  exists l, sparse_multiply_vec P nr nc z = Ok l /\ length l = nr /\
    forall i, (i < nr)%nat -> nth i l 0 = sumn nc (fun j => mat (triples (sM P)) i j * nth j z 0).
Proof.
  intros Hz H. destruct (multiply_vec_ok K P nr nc z Hz H) as (l & E & L & N). exists l. split; [exact E|]. split; [exact L|].
  intros i Hi. rewrite N by exact Hi. apply row_val_mat. intros e He. apply H, He.
Qed.
Lemma api_new_evaluate (K : Fld) (bytes : Type) (parse : bytes -> option K) (D : Type) (digest_of : r1cs K -> D)
    (nc nv ni : nat) (A B C : list (nat * nat * bytes)) I (rx ry : list K) :
  instance_new parse digest_of nc nv ni A B C = Ok I ->
  rc_cons (inst I) = (2 ^ length rx)%nat -> (2 * rc_vars (inst I) = 2 ^ length ry)%nat ->
  let M := fun P => mle (mat_table (triples (sM P)) (2 ^ length rx) (2 ^ length ry)) (rx ++ ry) in
  r1cs_evaluate (inst I) rx ry = Ok (M (rc_A (inst I)), M (rc_B (inst I)), M (rc_C (inst I))).
Proof.
  intros H Hx Hy M. pose proof (new_dims _ _ _ _ _ _ _ _ _ _ _ _ H) as (D1 & D2 & D3 & (WA & WB & WC)).
  assert (Hs : forall P, In P [rc_A (inst I); rc_B (inst I); rc_C (inst I)] -> snx P = length rx /\ sny P = length ry /\ ents_ok (2 ^ length rx) (2 ^ length ry) (sM P)).
  { pose proof (to_scalars_err K bytes parse nc nv ni A) as EA. pose proof (to_scalars_err K bytes parse nc nv ni B) as EB.
    pose proof (to_scalars_err K bytes parse nc nv ni C) as EC. pose proof (api_accepts K bytes parse D digest_of nc nv ni A B C) as Ha.
    destruct (first_bad parse nc nv ni A); [congruence|]. destruct (first_bad parse nc nv ni B); [congruence|].
    destruct (first_bad parse nc nv ni C); [congruence|]. destruct EA as [VA EA]. destruct EB as [VB EB]. destruct EC as [VC EC].
    destruct (instance_new_ok K bytes parse D digest_of _ _ _ _ _ _ _ _ _ EA EB EC) as (I' & E & EI & _).
    rewrite H in E. injection E as <-.
    assert (Lx : Nat.log2_up (pad_cons nc) = length rx) by (rewrite <- D1, Hx; apply Nat.log2_up_pow2; lia).
    assert (Ly : Nat.log2_up (2 * pad_vars nv ni) = length ry) by (rewrite <- D2, Hy; apply Nat.log2_up_pow2; lia).
    destruct (pad_vars_spec nv ni) as (_ & Vi & _). rewrite <- D2 in Vi.
    assert (Hcol : (rc_vars (inst I) + rc_inputs (inst I) + 1 <= 2 ^ length ry)%nat) by lia.
    assert (Hw : forall es : list (entry K), ents_ok (rc_cons (inst I)) (rc_vars (inst I) + rc_inputs (inst I) + 1) es -> ents_ok (2 ^ length rx) (2 ^ length ry) es).
    { intros es He e Hin. destruct (He e Hin). split; lia. }
    intros P HP. destruct HP as [<-|[<-|[<-|[]]]]; (split; [rewrite EI; exact Lx|]; split; [rewrite EI; exact Ly|apply Hw; assumption]). }
  unfold r1cs_evaluate. rewrite (multi_evaluate_ok K _ rx ry Hs). cbn [bind map]. reflexivity.
Qed.

(** ** cases *)
Definition zparse (z : Z) : option Fp := if (0 <=? z)%Z && (z <? Primes.p)%Z then Some (fp z) else None.
Definition zrepr (x : Fp) : Z := zval x.
Lemma zparse_zrepr x : zparse (zrepr x) = Some x.
Proof.
  unfold zparse, zrepr. pose proof (zval_range _ x) as R.
  replace (0 <=? zval x)%Z with true by (symmetry; apply Z.leb_le; lia).
  replace (zval x <? Primes.p)%Z with true by (symmetry; apply Z.ltb_lt; lia).
  cbn [andb]. f_equal. apply zq_eq. cbn. apply Z.mod_small. exact R.
Qed.
(* x * x = y, y * (1 + x) = 36 + input, over vars (x, y) *)
Definition exA : list (nat * nat * Z) := [(0, 0, 1%Z); (1, 1, 1%Z)]%nat.
Definition exB : list (nat * nat * Z) := [(0, 0, 1%Z); (1, 2, 1%Z); (1, 0, 1%Z)]%nat.
Definition exC : list (nat * nat * Z) := [(0, 1, 1%Z); (1, 2, 30%Z); (1, 2, 6%Z); (1, 3, 1%Z)]%nat.
Definition exVA : list (nat * nat * Fp) := [(0, 0, fp 1); (1, 1, fp 1)]%nat.
Definition exVB : list (nat * nat * Fp) := [(0, 0, fp 1); (1, 2, fp 1); (1, 0, fp 1)]%nat.
Definition exVC : list (nat * nat * Fp) := [(0, 1, fp 1); (1, 2, fp 30); (1, 2, fp 6); (1, 3, fp 1)]%nat.
Lemma case14 : triples_ok zparse 2 2 1 exA exVA /\ triples_ok zparse 2 2 1 exB exVB /\ triples_ok zparse 2 2 1 exC exVC /\
  let sat vars inputs := (do ii <- instance_new zparse (fun _ => tt) 2 2 1 exA exB exC; instance_is_sat ii vars inputs) in
  sat [fp 3; fp 9] [fp 0] = Ok true /\ sat [fp 3; fp 9] [fp 1] = Ok false /\
  sat [fp 3; fp 9; fp 1] [fp 0] = Err InvalidNumberOfInputs /\ sat [fp 3; fp 9] [] = Err InvalidNumberOfInputs.
Proof.
  split; [repeat constructor; zqs|]. split; [repeat constructor; zqs|]. split; [repeat constructor; zqs|].
  zqs.
Qed.
(* 2 wires beside the constant: w1 is a public input; w2 * w2 = w1, w1 * w0 = 25 w0 *)
Definition exCircom : circom Fp := MkCircom 3
  [([(2, fp 1)], [(2, fp 1)], [(1, fp 1)]); ([(1, fp 1)], [(0, fp 1)], [(0, fp 25)])]%nat.
Lemma case17 : wires_ok (c_num_variables exCircom) (c_constraints exCircom) /\ (forall x, zparse (zrepr x) = Some x) /\
  let sat w inputs := (do ii <- convert zparse (fun _ => tt) zrepr exCircom 1; instance_is_sat ii w inputs) in
  sat [fp 1; fp 25; fp 5] [fp 25] = Ok true /\
  sat [fp 1; fp 25; fp 6] [fp 25] = Ok false /\
  sat [fp 1; fp 25; fp 5] [fp 7] = Ok true /\
  sat [fp 0; fp 0; fp 0] [fp 7] = Ok true.
Proof.
  split; [|split; [exact zparse_zrepr|]].
  - intros a b c H. cbn [exCircom c_constraints c_num_variables] in *.
    repeat (destruct H as [H|H]; [injection H as <- <- <-; repeat split; intros j x Hj; repeat (destruct Hj as [Hj|Hj]; [injection Hj as <- <-; lia|]); destruct Hj|]).
    destruct H.
  - zqs.
Qed.
