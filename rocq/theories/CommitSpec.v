(** Vocabulary for the statements about commitments and the proofs built on them. *)
From Coq Require Import String List Arith Bool.
From Verif Require Import Base Field Vec CommitModel SigmaModel.
Import ListNotations.

Section CommitSpec.
  Context {K : Fld} {G : Mod K} {E : Enc G}.
  Local Open Scope fld_scope.

  (** v_0 G_0 + v_1 G_1 + ... over the common length *)
  Fixpoint lincomb (vs : list K) (gs : list G) : G :=
    match vs, gs with
    | v :: vs', g :: gs' => gadd (gmul v g) (lincomb vs' gs')
    | _, _ => g0
    end.
  (** a generator set holds as many message generators as it says *)
  Definition gens_ok (g : gens G) : Prop := length (gG g) = gn g.
  (** the Pedersen commitment to a vector / to one value *)
  Definition ped (g : gens G) (v : list K) (blind : K) : G := gadd (lincomb v (gG g)) (gmul blind (gh g)).
  Definition ped1 (g : gens G) (x blind : K) : G := ped g [x] blind.
  (** the encoding [C] decodes to the commitment *)
  Definition opens (g : gens G) (C : E) (v : list K) (blind : K) : Prop := decompress E C = Some (ped g v blind).
  Definition opens1 (g : gens G) (C : E) (x blind : K) : Prop := opens g C [x] blind.

  (** in the reduction with challenges u_1..u_k generator number i is scaled by the product
      of the u_j where bit k-j of i is set and of the inverses of the others *)
  Fixpoint sval (us : list K) (i : nat) : K :=
    match us with
    | [] => 1
    | u :: t => (if Nat.testbit i (length t) then u else finv u) * sval t i
    end.
  (** an absent blind counts as zero *)
  Definition blind_of (o : option K) : K := match o with Some b => b | None => 0 end.
  (** the evaluation proof made of identity points and zeros, with one point R too many *)
  Definition forged (k : nat) : lproof E :=
    let o := compress E g0 in MkLP (MkBP (repeat o k) (repeat o (S k))) o o 0 0.
  (** [P] holds unless the challenge drawn at one of [k] particular histories, each ending in a
      request labelled [label], is [v] *)
  Definition unless (H : log E -> K) (label : string) (v : K) (k : nat) (P : Prop) : Prop :=
    exists ls, length ls = k /\ (forall l, In l ls -> exists l', l = MChal label :: l') /\ ((forall l, In l ls -> H l <> v) -> P).
End CommitSpec.
