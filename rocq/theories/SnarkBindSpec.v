(** Vocabulary for what the transcript of the SNARK determines: everything in a proof that is
    sent before a challenge is drawn. *)
From Coq Require Import String List Arith Bool.
From Verif Require Import Base Field Vec CommitModel SigmaModel SumModel ProdModel NizkModel BindSpec SparModel SnarkModel.
Import ListNotations.

Section Spec.
  Context {K : Fld} {G : Mod K} {E : Enc G}.
  (** a batched product proof: its layers, and the triples of claims about dot products *)
  Definition pb_messages (p : pbproof K) := let '(dl, dr, dw) := bp_dotp p in (bp_layers p, combine (combine dl dr) dw).
  (** of the right halves only as many as there are left halves; the proof for the memory has no
      dot products *)
  Definition ly_messages (p : @lyproof K) :=
    (lyp_row p, lyp_col p, (fst (lyp_val p), firstn (length (fst (lyp_val p))) (snd (lyp_val p))), pb_messages (lyp_ops p), bp_layers (lyp_mem p)).
  (** the opened values, except those of the operations; the points of the three openings *)
  Definition hl_messages (p : @hproof K G E) :=
    (hp_der p, snd (hp_row p), snd (hp_col p), lp_points (hp_dpf p), lp_points (hp_ops p), lp_points (hp_mem p)).
  (** the opened values of the operations in one list *)
  Definition hl_ops (p : @hproof K G E) : list K :=
    fst (fst (hp_row p)) ++ snd (fst (hp_row p)) ++ fst (fst (hp_col p)) ++ snd (fst (hp_col p)) ++ hp_val p.
  (** equal up to zeros at the end *)
  Definition same_up_to_zeros (a b : list K) : Prop := exists n k, a ++ repeat f0 n = b ++ repeat f0 k.
  Definition sp_messages (p : @sproof K G E) := (sp_derefs p, ly_messages (np_prod (sp_net p)), hl_messages (np_hash (sp_net p))).
  Definition snark_messages (p : @snark K G E) := (nizk_points (MkNizk (sn_proof p) [] []), sn_evals p, sp_messages (sn_evalproof p)).
End Spec.
