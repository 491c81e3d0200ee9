(** Model of the group interface (packages/Spartan-secq/src/group.rs), of
    commitments.rs, transcript.rs and random.rs. *)
From Coq Require Import String List Arith Bool.
From Verif Require Import Base Field Vec MathModel PolyModel.
Import ListNotations.

(** Group elements and their encodings.  [G] is the prime-order group secq256k1 as
    a module over the scalar field; [enc] is the type of sec1 encodings
    ([CompressedGroup], group.rs:9).  Trusted (crates primeorder and sec1): encoding a
    point and decoding it gives the point back.  Nothing is assumed about other
    encodings; two encodings may decode to one point. *)
Record Enc {K : Fld} (G : Mod K) : Type := MkEnc {
  ecar :> Type;
  compress : G -> ecar;
  decompress : ecar -> option G;
  dec_comp : forall g, decompress (compress g) = Some g;
  eeqb : ecar -> ecar -> bool;
  eeqb_spec : forall a b, reflect (a = b) (eeqb a b)
}.
Arguments compress {K G} e _.
Arguments decompress {K G} e _.
Arguments eeqb {K G} e _ _.

Section Commit.
  Context {K : Fld} {G : Mod K} {E : Enc G}.
  Local Open Scope fld_scope.

  (** group.rs:15-27 and 33-37.  A point that does not decode panics in [unpack] too:
      the error constructor wants [[u8; 32]] (errors.rs:9) but an encoding is 1, 33 or
      65 bytes long, so [try_into().unwrap()] fails (group.rs:23). *)
  Definition unpack (e : E) : res G := of_opt (decompress E e).

  Definition gsum (l : list G) : G := fold_right gadd g0 l.
  (** group.rs:105-121: scalar [i] is paired with [points[i]]; a missing point panics,
      surplus points are ignored.  [multiexp] (crate multiexp) is the sum. *)
  Definition msm (ss : list K) (ps : list G) : res G :=
    assert (Nat.leb (length ss) (length ps));
    Ok (gsum (map2 gmul ss ps)).

  (** * commitments.rs *)
  (** commitments.rs:8-13 *)
  Record gens : Type := MkGens { gn : nat; gG : list G; gh : G }.
  (** commitments.rs:16-34; [stream i] is the i-th point derived from the
      SHAKE256 output for the label *)
  Definition gens_new (n : nat) (stream : nat -> G) : gens :=
    let all := tab (n + 1) stream in
    MkGens n (firstn n all) (nth n all g0).
  (** commitments.rs:44-50 *)
  Definition gens_scale (g : gens) (s : K) : res gens :=
    do l <- mapM (fun i => do x <- idx (gG g) i; Ok (gmul s x)) (seq 0 (gn g));
    Ok (MkGens (gn g) l (gh g)).
  (** commitments.rs:52-67 *)
  Definition gens_split (g : gens) (mid : nat) : res (gens * gens) :=
    assert (Nat.leb mid (length (gG g)));
    let a := firstn mid (gG g) in let b := skipn mid (gG g) in
    Ok (MkGens (length a) a (gh g), MkGens (length b) b (gh g)).
  (** commitments.rs:74-82 *)
  Definition commit1 (x blind : K) (g : gens) : res G :=
    assert (Nat.eqb (gn g) 1);
    do g1 <- idx (gG g) 0;
    msm [x; blind] [g1; gh g].
  (** commitments.rs:84-96 *)
  Definition commit (v : list K) (blind : K) (g : gens) : res G :=
    assert (Nat.eqb (gn g) (length v));
    do s <- msm v (gG g);
    Ok (gadd s (gmul blind (gh g))).

  (** * transcript.rs, crate merlin.  A transcript is the list of the operations
      performed on it, newest first; a challenge is an arbitrary function of it.
      Scalars are absorbed by their canonical bytes, so absorbing the value is the
      same (C02); points are absorbed by their encoding. *)
  Inductive msg : Type :=
  | MText (label text : string)
  | MRaw (label : string) (data : list nat)
  | MNat (label : string) (n : nat)
  | MScalar (label : string) (x : K)
  | MPoint (label : string) (e : E)
  | MChal (label : string).
  Definition log := list msg.
  Variable H : log -> K.

  (** transcript.rs:14-16 *)
  Definition proto (name : string) (tr : log) : log := MText "protocol-name" name :: tr.
  (** transcript.rs:18-20 *)
  Definition app_scalar (l : string) (x : K) (tr : log) : log := MScalar l x :: tr.
  (** transcript.rs:22-24 and 59-63 *)
  Definition app_point (l : string) (e : E) (tr : log) : log := MPoint l e :: tr.
  (** transcript.rs:49-57 *)
  Definition app_scalars (l : string) (xs : list K) (tr : log) : log :=
    MText l "end_append_vector" :: rev (map (MScalar l) xs) ++ MText l "begin_append_vector" :: tr.
  (** transcript.rs:26-30 *)
  Definition challenge (l : string) (tr : log) : K * log := (H (MChal l :: tr), MChal l :: tr).
  (** transcript.rs:32-36 *)
  Fixpoint challenges (l : string) (n : nat) (tr : log) : list K * log :=
    match n with
    | O => ([], tr)
    | S n' => let '(x, tr) := challenge l tr in let '(xs, tr) := challenges l n' tr in (x :: xs, tr)
    end.

  (** * random.rs: the tape is a transcript seeded with a random scalar
      (random.rs:10-18); its scalars are challenges (random.rs:20-26). *)
  Definition tape_new (name : string) (seed : K) : log := [MScalar "init_randomness" seed; MText "dom-sep" name].
  Definition random_scalar (l : string) (tape : log) : K * log := challenge l tape.
  Definition random_vector (l : string) (n : nat) (tape : log) : list K * log := challenges l n tape.
End Commit.
Arguments gens {K} G.
Arguments msg {K G} E.
Arguments log {K G} E.
