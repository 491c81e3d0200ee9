(** Algebraic provers: every point they send comes with its coefficients in the
    generators.  Vectors of coefficients, and encodings that carry them. *)
From Coq Require Import String List Arith Bool.
From Verif Require Import Base ListAux Field Vec PolyModel PolySpec R1csModel R1csSpec CommitModel SigmaModel CommitSpec SumModel NizkModel EvalSpec AgmSpec.
Import ListNotations.

(** * vectors of n scalars *)
Section Free.
  Variable K : Fld.
  Add Field Kfs : (fth K).
  Definition zero_mod : Mod K.
  Proof.
    refine (MkMod unit tt (fun _ _ => tt) (fun _ => tt) (fun _ _ => tt) _ _ _ _ _ _ _ _ (fun _ _ => true) _); intros; try reflexivity; try (now destruct a).
    destruct a, b. now constructor.
  Defined.
  Definition prod_mod (A B : Mod K) : Mod K.
  Proof.
    refine (MkMod (A * B) (g0, g0) (fun x y => (gadd (fst x) (fst y), gadd (snd x) (snd y))) (fun x => (gopp (fst x), gopp (snd x)))
      (fun c x => (gmul c (fst x), gmul c (snd x))) _ _ _ _ _ _ _ _ (fun x y => geqb (fst x) (fst y) && geqb (snd x) (snd y)) _); intros; cbn [fst snd].
    - now rewrite !gadd_assoc.
    - now rewrite (gadd_comm _ _ (fst a)), (gadd_comm _ _ (snd a)).
    - rewrite !gadd_0_l. now destruct a.
    - now rewrite !gadd_opp.
    - now rewrite !gmul_add_r.
    - now rewrite !gmul_add_l.
    - now rewrite !gmul_mul.
    - rewrite !gmul_1. now destruct a.
    - destruct a as [a1 a2], b as [b1 b2]. cbn [fst snd]. destruct (geqb_spec _ _ a1 b1) as [->|N]; [destruct (geqb_spec _ _ a2 b2) as [->|N]|]; constructor; congruence.
  Defined.
  Fixpoint free (n : nat) : Mod K :=
    match n with O => zero_mod | S n' => prod_mod (self_mod K) (free n') end.
  (** the i-th entry *)
  Fixpoint entry (n : nat) : nat -> free n -> K :=
    match n with
    | O => fun _ _ => f0
    | S n' => fun i v => match i with O => fst v | S i' => entry n' i' (snd v) end
    end.
  (** the i-th unit vector; zero if there is none *)
  Fixpoint unit_vec (n : nat) : nat -> free n :=
    match n with
    | O => fun _ => tt
    | S n' => fun i => match i with O => (f1, g0) | S i' => (f0, unit_vec n' i') end
    end.
End Free.
Arguments entry {K n} i v.
Arguments unit_vec {K} n i.

Section Known.
  Context {K : Fld} {G : Mod K}.
  (** the combination of the first n generators with the entries of v as coefficients *)
  Definition combine_gens (n : nat) (stream : nat -> G) (v : free K n) : G := lincomb (tab n (fun i => entry i v)) (tab n stream).

  Variables (E : Enc G) (n : nat) (stream : nat -> G).
  (** an encoding with coefficients: if it decodes, the coefficients are those of its point *)
  Definition knownb (x : E * free K n) : bool :=
    match decompress E (fst x) with Some P => geqb P (combine_gens n stream (snd x)) | None => true end.
  Definition known : Type := { x : E * free K n | knownb x = true }.
  Definition raw (x : known) : E := fst (proj1_sig x).
  Lemma known_comp (v : free K n) : knownb (compress E (combine_gens n stream v), v) = true.
  Proof. unfold knownb. cbn [fst snd]. rewrite dec_comp. destruct (geqb_spec _ _ (combine_gens n stream v) (combine_gens n stream v)); congruence. Qed.
  Lemma known_eq (x y : known) : proj1_sig x = proj1_sig y -> x = y.
  Proof.
    destruct x as [x px], y as [y py]. cbn [proj1_sig]. intros ->. f_equal. apply Eqdep_dec.UIP_dec, bool_dec.
  Qed.
  Definition known_enc : Enc (free K n).
  Proof.
    refine (MkEnc K (free K n) known (fun v => exist _ (compress E (combine_gens n stream v), v) (known_comp v))
      (fun x => match decompress E (raw x) with Some _ => Some (snd (proj1_sig x)) | None => None end) _
      (fun x y => eeqb E (raw x) (raw y) && geqb (snd (proj1_sig x)) (snd (proj1_sig y))) _).
    - intro v. unfold raw. cbn [proj1_sig fst snd]. now rewrite dec_comp.
    - intros x y. destruct (eeqb_spec _ E (raw x) (raw y)) as [A|A]; [destruct (geqb_spec _ _ (snd (proj1_sig x)) (snd (proj1_sig y))) as [B|B]|]; constructor; try congruence.
      apply known_eq. unfold raw in A. destruct x as [[x1 x2] px], y as [[y1 y2] py]. cbn [proj1_sig fst snd] in *. congruence.
  Defined.
  (** without the coefficients: what the verifier receives *)
  Definition bare (x : known_enc) : E := raw x.
End Known.
Arguments known_enc {K G} E n stream.
Arguments raw {K G E n stream} x.
Arguments bare {K G} E n stream x.

(** * the same proof with other encodings of the points *)
Section Over.
  Context {K : Fld} {F G : Mod K} {EF : Enc F} {E : Enc G}.
  Variable f : EF -> E.
  Definition kp_over (p : kproof EF) : kproof E := MkKP (f (kp_alpha p)) (kp_z1 p) (kp_z2 p).
  Definition ep_over (p : eproof EF) : eproof E := MkEP (f (ep_alpha p)) (ep_z p).
  Definition pp_over (p : pproof EF) : pproof E := MkPP (f (pp_alpha p)) (f (pp_beta p)) (f (pp_delta p)) (pp_z p).
  Definition dp_over (p : dproof EF) : dproof E := MkDP (f (dp_delta p)) (f (dp_beta p)) (dp_z p) (dp_zdelta p) (dp_zbeta p).
  Definition lp_over (p : lproof EF) : lproof E :=
    MkLP (MkBP (map f (bp_L (lp_bullet p))) (map f (bp_R (lp_bullet p)))) (f (lp_delta p)) (f (lp_beta p)) (lp_z1 p) (lp_z2 p).
  Definition zk_over (p : zkproof EF) : zkproof E := MkZK (map f (zk_polys p)) (map f (zk_evals p)) (map dp_over (zk_proofs p)).
  Definition rp_over (p : r1csproof EF) : r1csproof E :=
    let '(Az, Bz, Cz, Pr) := rp_claims p in
    MkRP (map f (rp_comm_vars p)) (zk_over (rp_sc1 p)) (f Az, f Bz, f Cz, f Pr) (kp_over (rp_pok p)) (pp_over (rp_prod p)) (ep_over (rp_eq1 p))
      (zk_over (rp_sc2 p)) (f (rp_comm_ry p)) (lp_over (rp_eval p)) (ep_over (rp_eq2 p)).
  Definition nizk_over (p : nizk EF) : nizk E := MkNizk (rp_over (nz_proof p)) (nz_rx p) (nz_ry p).
End Over.
