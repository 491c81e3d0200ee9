From Coq Require Import ZArith List Bool Lia.
From Verif Require Import Base Primes Field Zq Limb LimbSpec LimbInt R1csModel R1csSpec TsSpec TsProofs ReadModel ReadSpec.
Import ListNotations.
Local Open Scope Z_scope.

(** * Little-endian strings *)
Lemma of_le_be b : of_le b = be_value (rev b).
Proof.
  induction b as [|x t IH]; [reflexivity|]. cbn [rev of_le]. rewrite IH.
  assert (A : forall a y, be_value (a ++ [y]) = 256 * be_value a + y).
  { clear. induction a as [|z a IH]; intro y; [cbn; lia|]. cbn [app be_value]. rewrite IH, app_length. cbn [length].
    rewrite Nat.add_1_r, Nat2Z.inj_succ, Z.pow_succ_r by lia. ring. }
  rewrite A. lia.
Qed.
Lemma le_string_length k v : length (le_string k v) = k.
Proof. unfold le_string. rewrite rev_length. apply be_string_length. Qed.
Lemma le_string_bytes k v : is_bytes (le_string k v).
Proof. apply Forall_rev, be_string_bytes. Qed.
Lemma of_le_string k v : of_le (le_string k v) = v mod 256 ^ Z.of_nat k.
Proof. rewrite of_le_be. unfold le_string. rewrite rev_involutive. apply be_value_string. Qed.
Lemma le_string_of_le b : is_bytes b -> le_string (length b) (of_le b) = b.
Proof.
  intro H. rewrite of_le_be. unfold le_string. rewrite <- (rev_length b), be_string_value by (apply Forall_rev, H). apply rev_involutive.
Qed.
Lemma le_bytes_string k v : 0 <= v -> le_bytes k v = le_string k v.
Proof.
  intro H. apply of_le_inj; [apply le_bytes_ok|apply le_string_bytes|rewrite le_bytes_length, le_string_length; reflexivity|].
  rewrite of_le_le_bytes by exact H. symmetry. apply of_le_string.
Qed.
Lemma swap_range v : 0 <= swap v < 2 ^ 256.
Proof. exact (be_value_range _ (le_string_bytes 32 v)). Qed.
Lemma le_string_swap v : le_string 32 (swap v) = rev (le_string 32 v).
Proof.
  unfold swap, le_string at 1. f_equal. pose proof (be_string_value (le_string 32 v) (le_string_bytes _ _)) as E.
  rewrite le_string_length in E. exact E.
Qed.
Lemma swap_swap v : 0 <= v < 2 ^ 256 -> swap (swap v) = v.
Proof.
  intro H. unfold swap at 1. rewrite le_string_swap. unfold le_string. rewrite rev_involutive, be_value_string. apply Z.mod_small. exact H.
Qed.
Lemma zval_swap v : swap v < p -> zval (fp (swap v)) = swap v.
Proof. intro H. apply Z.mod_small. pose proof (swap_range v). lia. Qed.
Lemma from_repr_le v : from_repr (le_string 32 v) = if swap v <? p then Some (fp (swap v)) else None.
Proof. unfold from_repr. rewrite of_le_be, rev_involutive. reflexivity. Qed.
Lemma to_repr_swap v : swap v < p -> to_repr (fp (swap v)) = le_string 32 v.
Proof.
  intro H. unfold to_repr. rewrite zval_swap by exact H. rewrite le_bytes_string by apply swap_range.
  rewrite le_string_swap. apply rev_involutive.
Qed.
Lemma le_parse_string v : 0 <= v < 2 ^ 256 -> le_parse (le_string 32 v) = if v <? p then Some (fp v) else None.
Proof. intro H. unfold le_parse. rewrite of_le_string, Z.mod_small by exact H. reflexivity. Qed.

(** * Reading what was written *)
Lemma read_exact_app k a s : length a = k -> read_exact k (a ++ s) = Ok (a, s).
Proof.
  intro H. unfold read_exact. rewrite app_length. destruct (Nat.leb_spec k (length a + length s)); [|lia].
  rewrite firstn_app, skipn_app, firstn_all2, skipn_all2 by lia. replace (k - length a)%nat with 0%nat by lia.
  cbn [firstn skipn]. rewrite app_nil_r. reflexivity.
Qed.
Lemma read_u32_app v s : u32 v -> read_u32 (le_string 4 v ++ s) = Ok (v, s).
Proof.
  intro H. unfold read_u32. rewrite read_exact_app by apply le_string_length. cbn [bind].
  rewrite of_le_string, Z.mod_small by exact H. reflexivity.
Qed.
Lemma read_u64_app v s : u64 v -> read_u64 (le_string 8 v ++ s) = Ok (v, s).
Proof.
  intro H. unfold read_u64. rewrite read_exact_app by apply le_string_length. cbn [bind].
  rewrite of_le_string, Z.mod_small by exact H. reflexivity.
Qed.
Lemma read_field_app v s : read_field (le_string 32 v ++ s) = if swap v <? p then Ok (fp (swap v), s) else Panic.
Proof.
  unfold read_field. rewrite read_exact_app by apply le_string_length. cbn [bind]. rewrite from_repr_le.
  destruct (swap v <? p); reflexivity.
Qed.
(** sequences: every element is read if [ok] holds of all, otherwise a panic *)
Lemma read_many_app {A B} (f : list Z -> res (A * list Z)) (enc : B -> list Z) (ok : B -> bool) (g : B -> A) (l : list B) s :
  (forall b s, In b l -> f (enc b ++ s) = if ok b then Ok (g b, s) else Panic) ->
  read_many f (length l) (flat_map enc l ++ s) = if forallb ok l then Ok (map g l, s) else Panic.
Proof.
  induction l as [|b l IH]; intro H; [reflexivity|]. cbn [length read_many flat_map forallb map].
  rewrite <- app_assoc, (H b _ (or_introl eq_refl)). destruct (ok b); [|reflexivity]. cbn [bind andb].
  rewrite IH by (intros; apply H; right; assumption). destruct (forallb ok l); reflexivity.
Qed.
Definition ok_lin (l : zlin) : bool := forallb (fun t => swap (snd t) <? p) l.
Definition ok_cons (c : zlin * zlin * zlin) : bool := let '(a, b, d) := c in ok_lin a && ok_lin b && ok_lin d.
Definition fswap (x : Z) : Fp := fp (swap x).
Lemma nat_len {A} (l : list A) : Z.to_nat (zlen l) = length l.
Proof. apply Nat2Z.id. Qed.
Lemma read_lin_app l s : lin_fits l ->
  read_constraint_vec (lin_bytes l ++ s) = if ok_lin l then Ok (lin_map fswap l, s) else Panic.
Proof.
  intros [H1 H2]. unfold read_constraint_vec, lin_bytes. rewrite <- app_assoc, read_u32_app by exact H1. cbn [bind].
  rewrite nat_len. apply (read_many_app read_term (fun '(j, x) => le_string 4 (Z.of_nat j) ++ le_string 32 x)
    (fun t => swap (snd t) <? p) (fun '(j, x) => (j, fswap x))).
  intros [j x] s' Hin. destruct (H2 j x Hin) as [Hj Hx]. unfold read_term. rewrite <- app_assoc, read_u32_app by exact Hj. cbn [bind].
  rewrite read_field_app. cbn [snd]. destruct (swap x <? p); [|reflexivity]. cbn [bind]. rewrite Nat2Z.id. reflexivity.
Qed.
Lemma read_cons_app c s : let '(a, b, d) := c in lin_fits a /\ lin_fits b /\ lin_fits d ->
  read_constraint ((let '(a, b, d) := c in lin_bytes a ++ lin_bytes b ++ lin_bytes d) ++ s) =
  if ok_cons c then Ok ((let '(a, b, d) := c in (lin_map fswap a, lin_map fswap b, lin_map fswap d)), s) else Panic.
Proof.
  destruct c as [[a b] d]. intros (Ha & Hb & Hd). unfold read_constraint, ok_cons. rewrite <- !app_assoc.
  rewrite (read_lin_app a _ Ha). destruct (ok_lin a); [|reflexivity]. cbn [bind andb].
  rewrite (read_lin_app b _ Hb). destruct (ok_lin b); [|reflexivity]. cbn [bind andb].
  rewrite (read_lin_app d _ Hd). destruct (ok_lin d); reflexivity.
Qed.

(** * Sections *)
Lemma seek_at a b : seek (a ++ b) (zlen a) = b.
Proof.
  unfold seek, zlen. rewrite app_length, Nat2Z.id. destruct (Z.ltb_spec (Z.of_nat (length a)) (Z.of_nat (length a + length b))).
  - rewrite skipn_app, skipn_all2, Nat.sub_diag by lia. reflexivity.
  - destruct b as [|x b]; [reflexivity|]. cbn [length] in H. lia.
Qed.
Lemma zlen_app {A} (a b : list A) : zlen (a ++ b) = zlen a + zlen b.
Proof. unfold zlen. rewrite app_length. lia. Qed.
Lemma zlen_le k v : zlen (le_string k v) = Z.of_nat k.
Proof. unfold zlen. rewrite le_string_length. reflexivity. Qed.
Lemma zlen_nonneg {A} (a : list A) : 0 <= zlen a. Proof. unfold zlen. lia. Qed.
(** the table of the sections read from position [pos] on *)
Fixpoint table (secs : list (Z * list Z)) (pos : Z) (t : list (Z * (Z * Z))) : list (Z * (Z * Z)) :=
  match secs with
  | [] => t
  | (ty, b) :: r => table r (pos + 12 + zlen b) ((ty, (pos + 12, zlen b)) :: t)
  end.
Lemma section_len s : zlen (section_bytes s) = 12 + zlen (snd s).
Proof. unfold section_bytes. rewrite !zlen_app, !zlen_le. lia. Qed.
Lemma read_sections_ok secs : forall pre tail t, (forall ty b, In (ty, b) secs -> u32 ty) ->
  zlen (pre ++ flat_map section_bytes secs) < 2 ^ 63 ->
  read_sections (pre ++ flat_map section_bytes secs ++ tail) (length secs) (zlen pre) t = Ok (table secs (zlen pre) t).
Proof.
  induction secs as [|[ty b] r IH]; intros pre tail t H L; [reflexivity|]. cbn [length read_sections flat_map table] in *.
  rewrite seek_at. pose proof (zlen_nonneg pre) as Hp. pose proof (zlen_nonneg b) as Hb. pose proof (zlen_nonneg (flat_map section_bytes r)) as Hr.
  rewrite !zlen_app, section_len in L. cbn [snd] in L.
  assert (U : u64 (zlen b)) by (unfold u64; lia).
  unfold section_bytes at 1. cbn [fst snd]. rewrite <- !app_assoc, read_u32_app by exact (H ty b (or_introl eq_refl)). cbn [bind].
  rewrite read_u64_app by exact U. cbn [bind]. unfold as_i64. destruct (Z.ltb_spec (zlen b) (2 ^ 63)); [|lia].
  destruct (Z.ltb_spec (zlen pre + 12 + zlen b) 0); [lia|]. destruct (Z.leb_spec (2 ^ 63) (zlen pre + 12 + zlen b)); [lia|]. cbn [orb].
  replace (zlen pre + 12 + zlen b) with (zlen (pre ++ section_bytes (ty, b))) by (rewrite zlen_app, section_len; cbn [snd]; lia).
  specialize (IH (pre ++ section_bytes (ty, b)) tail ((ty, (zlen pre + 12, zlen b)) :: t)).
  rewrite <- !app_assoc in IH. apply IH.
  - intros ty' b' Hin. apply (H ty' b'). right. exact Hin.
  - rewrite !zlen_app, section_len. cbn [snd]. lia.
Qed.
Lemma table_keep secs : forall pos t k e, ~ In k (map fst secs) -> find (fun e => fst e =? k) t = e ->
  find (fun e => fst e =? k) (table secs pos t) = e.
Proof.
  induction secs as [|[ty b] r IH]; intros pos t k e N E; [exact E|]. cbn [table]. apply IH.
  - intro I. apply N. right. exact I.
  - cbn [find fst]. destruct (Z.eqb_spec ty k) as [->|_]; [|exact E]. exfalso. apply N. left. reflexivity.
Qed.
(** looking a section up gives the position of its body *)
Lemma section_ok secs k b : NoDup (map fst secs) -> In (k, b) secs -> forall pre tail t,
  exists pos, section (table secs (zlen pre) t) k = Ok (pos, zlen b) /\
    exists rest, seek (pre ++ flat_map section_bytes secs ++ tail) pos = b ++ rest.
Proof.
  induction secs as [|[ty c] r IH]; intros ND Hin pre tail t; [destruct Hin|]. cbn [map fst] in ND. inversion ND as [|? ? N ND']; subst.
  cbn [table flat_map]. destruct Hin as [E|Hin].
  - injection E as -> ->. exists (zlen pre + 12). split.
    + unfold section. rewrite (table_keep r _ _ k (Some (k, (zlen pre + 12, zlen b))) N); [reflexivity|]. cbn [find fst]. rewrite Z.eqb_refl. reflexivity.
    + exists (flat_map section_bytes r ++ tail). unfold section_bytes at 1. cbn [fst snd].
      replace (zlen pre + 12) with (zlen (pre ++ le_string 4 k ++ le_string 8 (zlen b))) by (rewrite !zlen_app, !zlen_le; lia).
      rewrite <- !app_assoc.
      pose proof (seek_at (pre ++ le_string 4 k ++ le_string 8 (zlen b)) (b ++ flat_map section_bytes r ++ tail)) as S. rewrite <- !app_assoc in S. exact S.
  - specialize (IH ND' Hin (pre ++ section_bytes (ty, c)) tail ((ty, (zlen pre + 12, zlen c)) :: t)).
    rewrite zlen_app, section_len in IH. cbn [snd] in IH. rewrite <- app_assoc in IH.
    replace (zlen pre + 12 + zlen c) with (zlen pre + (12 + zlen c)) by lia. rewrite <- app_assoc. exact IH.
Qed.

(** * .r1cs files *)
Definition coeffs_okb (c : circuit) : bool := forallb ok_cons (ci_cons c).
Definition head_of (prime : list Z) (c : circuit) : header :=
  MkHeader 32 prime (ci_wires c) (ci_pub_out c) (ci_pub_in c) (ci_prv_in c) (ci_labels c) (zlen (ci_cons c)).
Lemma read_header_ok prime c rest : length prime = 32%nat -> circuit_ok c ->
  read_header (header_body prime c ++ rest) (zlen (header_body prime c)) = Ok (head_of prime c, rest).
Proof.
  intros Lp (H1 & H2 & H3 & H4 & H5 & H6 & _). unfold read_header.
  assert (E : zlen (header_body prime c) = 64).
  { unfold header_body. rewrite !zlen_app, !zlen_le. unfold zlen. rewrite Lp. reflexivity. }
  rewrite E. unfold header_body. rewrite <- !app_assoc.
  rewrite read_u32_app by (unfold u32; lia). cbn [bind]. rewrite read_exact_app by exact Lp. cbn [bind].
  change (negb (64 =? 32 + 32)) with false. cbv iota.
  rewrite read_u32_app by exact H1. cbn [bind]. rewrite read_u32_app by exact H2. cbn [bind].
  rewrite read_u32_app by exact H3. cbn [bind]. rewrite read_u32_app by exact H4. cbn [bind].
  rewrite read_u64_app by exact H5. cbn [bind]. rewrite read_u32_app by exact H6. reflexivity.
Qed.
Lemma map_len c : zlen (map_body c) = 8 * zlen (ci_map c).
Proof.
  unfold map_body, zlen. induction (ci_map c) as [|x l IH]; [reflexivity|]. cbn [flat_map]. rewrite app_length, le_string_length. cbn [length]. lia.
Qed.
Lemma read_map_ok prime c rest : circuit_ok c -> read_map (map_body c ++ rest) (zlen (map_body c)) (head_of prime c) = Ok (ci_map c, rest).
Proof.
  intros (_ & _ & _ & _ & _ & _ & _ & H8 & H9 & H10). unfold read_map. rewrite map_len, H8. cbn [head_of h_wires].
  rewrite (Z.mul_comm 8), Z.eqb_refl. cbn [negb]. rewrite <- H8, nat_len.
  pose proof (read_many_app read_u64 (le_string 8) (fun _ => true) (fun x => x) (ci_map c) rest) as R.
  rewrite map_id in R. unfold map_body. rewrite R.
  - replace (forallb (fun _ : Z => true) (ci_map c)) with true by (symmetry; apply forallb_forall; reflexivity). cbn [bind].
    unfold idx. rewrite H10. reflexivity.
  - intros x s Hin. apply read_u64_app. apply (proj1 (Forall_forall u64 (ci_map c)) H9 x Hin).
Qed.
Lemma read_constraints_ok prime c rest : circuit_ok c ->
  read_constraints (cons_body c ++ rest) (head_of prime c) = if coeffs_okb c then Ok (cons_map fswap (ci_cons c), rest) else Panic.
Proof.
  intros (_ & _ & _ & _ & _ & _ & H7 & _). unfold read_constraints, cons_body, coeffs_okb, cons_map. cbn [head_of h_constraints]. rewrite nat_len.
  apply (read_many_app read_constraint (fun '(a, b, d) => lin_bytes a ++ lin_bytes b ++ lin_bytes d) ok_cons).
  intros [[a b] d] s Hin. exact (read_cons_app (a, b, d) s (H7 a b d Hin)).
Qed.
Theorem from_reader_ok prime c secs tail : circuit_ok c -> sections_ok prime c secs ->
  from_reader (r1cs_bytes secs ++ tail) =
  if coeffs_okb c then Ok (MkR1csFile (head_of prime c) (cons_map fswap (ci_cons c)) (ci_map c)) else Panic.
Proof.
  intros Hc (Lp & Bp & I1 & I2 & I3 & ND & Ty & Ls & Lf). unfold from_reader.
  set (pre := [0x72; 0x31; 0x63; 0x73] ++ le_string 4 1 ++ le_string 4 (zlen secs)).
  assert (EF : r1cs_bytes secs ++ tail = pre ++ flat_map section_bytes secs ++ tail).
  { unfold r1cs_bytes, pre. rewrite <- !app_assoc. reflexivity. }
  assert (Lpre : zlen pre = 12) by (unfold pre; rewrite !zlen_app, !zlen_le; reflexivity).
  assert (LF : zlen (pre ++ flat_map section_bytes secs) < 2 ^ 63).
  { unfold r1cs_bytes in Lf. unfold pre. rewrite <- !app_assoc. exact Lf. }
  rewrite EF. set (file := pre ++ flat_map section_bytes secs ++ tail).
  assert (E1 : read_exact 4 file = Ok ([0x72; 0x31; 0x63; 0x73], le_string 4 1 ++ le_string 4 (zlen secs) ++ flat_map section_bytes secs ++ tail)).
  { unfold file, pre. rewrite <- !app_assoc. apply read_exact_app. reflexivity. }
  rewrite E1. cbn [bind]. destruct (list_eq_dec _ _ _) as [_|N]; [|congruence]. cbn [negb].
  rewrite read_u32_app by (unfold u32; lia). cbn [bind]. change (negb (1 =? 1)) with false. cbv iota.
  rewrite read_u32_app by exact Ls. cbn [bind]. rewrite nat_len. rewrite <- Lpre.
  unfold file. rewrite (read_sections_ok secs pre tail [] Ty LF). cbn [bind]. fold file.
  destruct (section_ok secs 1 _ ND I1 pre tail []) as (p1 & -> & r1 & S1). cbn [bind]. fold file in S1. rewrite S1.
  rewrite (read_header_ok prime c r1 Lp Hc). cbn [bind]. change (negb (h_field_size (head_of prime c) =? 32)) with false. cbv iota.
  destruct (section_ok secs 2 _ ND I2 pre tail []) as (p2 & -> & r2 & S2). cbn [bind]. fold file in S2. rewrite S2.
  rewrite (read_constraints_ok prime c r2 Hc). destruct (coeffs_okb c); [|reflexivity]. cbn [bind].
  destruct (section_ok secs 3 _ ND I3 pre tail []) as (p3 & -> & r3 & S3). cbn [bind]. fold file in S3. rewrite S3.
  rewrite (read_map_ok prime c r3 Hc). reflexivity.
Qed.
Lemma ok_lin_spec l : ok_lin l = true <-> forall j x, In (j, x) l -> swap x < p.
Proof.
  unfold ok_lin. rewrite forallb_forall. split; intro H.
  - intros j x Hin. apply Z.ltb_lt. exact (H (j, x) Hin).
  - intros [j x] Hin. apply Z.ltb_lt. exact (H j x Hin).
Qed.
Lemma coeffs_okb_spec c : coeffs_okb c = true <-> all_coeffs (fun x => swap x < p) c.
Proof.
  unfold coeffs_okb, all_coeffs. rewrite forallb_forall. split; intro H.
  - intros a b d Hin. specialize (H _ Hin). unfold ok_cons in H. rewrite !andb_true_iff, !ok_lin_spec in H. tauto.
  - intros [[a b] d] Hin. unfold ok_cons. rewrite !andb_true_iff, !ok_lin_spec. destruct (H a b d Hin) as (H1 & H2 & H3). tauto.
Qed.
