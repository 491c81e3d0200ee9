(** Specification: the group of a curve y^2 = x^3 + b in affine coordinates,
    by the textbook chord and tangent rules.  Nothing here models code; the
    circuits of /repo/packages/circuits are compared with it. *)
From Coq Require Import ZArith List Bool Field Ring.
From Verif Require Import Field.
Local Open Scope fld_scope.

(** curves in characteristic other than 2 without points of order two *)
Record Curve (K : Fld) : Type := MkCurve {
  cb : K;
  cchar : (1 + 1 : K) <> 0;
  cno2 : forall x : K, x * x * x + cb <> 0
}.
Arguments cb {_} _.

Section CurveSpec.
  Context {K : Fld}.
  Variable C : Curve K.

  (** [None] is the point at infinity *)
  Definition on_curve (P : option (K * K)) : bool :=
    match P with None => true | Some (x, y) => feqb (y * y) (x * x * x + cb C) end.

  Definition eadd (P Q : option (K * K)) : option (K * K) :=
    match P, Q with
    | None, _ => Q
    | _, None => P
    | Some (x1, y1), Some (x2, y2) =>
      if feqb x1 x2 then
        if feqb y2 (- y1) then None
        else let l := ((1 + 1 + 1) * (x1 * x1)) / ((1 + 1) * y1) in
             let x3 := l * l - x1 - x2 in Some (x3, l * (x1 - x3) - y1)
      else let l := (y2 - y1) / (x2 - x1) in
           let x3 := l * l - x1 - x2 in Some (x3, l * (x1 - x3) - y1)
    end.

  Definition eopp (P : option (K * K)) : option (K * K) :=
    match P with None => None | Some (x, y) => Some (x, - y) end.

  (** integer multiples, by double-and-add *)
  Fixpoint emul_pos (k : positive) (P : option (K * K)) : option (K * K) :=
    match k with
    | xH => P
    | xO k => let Q := emul_pos k P in eadd Q Q
    | xI k => let Q := emul_pos k P in eadd (eadd Q Q) P
    end.
  Definition emul (k : Z) (P : option (K * K)) : option (K * K) :=
    match k with Z0 => None | Zpos k => emul_pos k P | Zneg k => eopp (emul_pos k P) end.
End CurveSpec.
